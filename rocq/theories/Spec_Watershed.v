(** * Spec_Watershed: vocabulary for the watershed properties *)
From Verif Require Import Base F Heap Spec Spec_Morph Spec_Draw.

(** Block [p] is live and holds the points [mk]. *)
Definition holds_pts (s : st) (p : ptr) (mk : buf (f64 * f64)) : Prop :=
  exists i, p = Ptr i /\ mem s i = Some (OPts mk).

(** The pixel of the [m]-th marker: its coordinates without their fraction. *)
Definition mx (mk : buf (f64 * f64)) (m : Z) : Z :=
  match bget mk m with Some (x, _) => int_part x | None => 0 end.
Definition my (mk : buf (f64 * f64)) (m : Z) : Z :=
  match bget mk m with Some (_, y) => int_part y | None => 0 end.

(** The [m]-th marker exists and has finite coordinates. *)
Definition finite_marker (mk : buf (f64 * f64)) (m : Z) : Prop :=
  exists x y, bget mk m = Some (x, y) /\ dfinite x = true /\ dfinite y = true.

(** [n] markers, all inside a [w]x[h] picture. *)
Definition markers_ok (w h : Z) (mk : buf (f64 * f64)) (n : Z) : Prop :=
  0 < n <= 2147483647 /\ n <= blen mk /\
  forall m, 0 <= m < n -> finite_marker mk m /\ inside w h (mx mk m) (my mk m).

(** Left, right, upper and lower neighbours. *)
Definition adjacent (x y x' y' : Z) : Prop :=
  (y' = y /\ (x' = x - 1 \/ x' = x + 1)) \/ (x' = x /\ (y' = y - 1 \/ y' = y + 1)).

(** [flows w h P x0 y0 x y]: from (x0,y0) one can walk to (x,y) inside the
    picture, from neighbour to neighbour, entering only pixels with [P]. *)
Inductive flows (w h : Z) (P : Z -> Z -> Prop) (x0 y0 : Z) : Z -> Z -> Prop :=
| flows_start : flows w h P x0 y0 x0 y0
| flows_step : forall x y x' y', flows w h P x0 y0 x y -> adjacent x y x' y' -> inside w h x' y' ->
    P x' y' -> flows w h P x0 y0 x' y'.

(** Water rising to level [j] reaches pixel (x,y) from some marker. *)
Definition reached (w h : Z) (g : Z -> Z -> Z) (mk : buf (f64 * f64)) (n j x y : Z) : Prop :=
  exists m, 0 <= m < n /\ flows w h (fun u v => g u v <= j) (mx mk m) (my mk m) x y.

(** The colours of the regions; black for pixels of no region (-1). *)
Definition region_colour (l : Z) : Z * Z * Z :=
  if l =? -1 then (0,0,0) else
  nth (Z.to_nat l)
    [(255,0,0); (0,255,0); (0,0,255); (255,255,0); (255,0,255); (0,255,255); (255,128,0); (128,0,255); (255,192,203)]
    (128,128,128).

(** RGBA picture [b] shows each pixel opaquely in the colour of its region [L]. *)
Definition coloured (w h : Z) (L : Z -> Z -> Z) (b : buf Z) : Prop :=
  exact_image (w * h * 4) b /\ forall x y, inside w h x y ->
    (pixv b w 4 x y 0, pixv b w 4 x y 1, pixv b w 4 x y 2) = region_colour (L x y) /\
    pix b w 4 x y 3 = Some 255.

(** Every pixel is in the region of one of the [n] markers, or in none (-1). *)
Definition labelling (w h n : Z) (L : Z -> Z -> Z) : Prop :=
  forall x y, inside w h x y -> -1 <= L x y < n.

(** The pixel of every marker is in the region of a marker on that pixel. *)
Definition seeded (n : Z) (mk : buf (f64 * f64)) (L : Z -> Z -> Z) : Prop :=
  forall m, 0 <= m < n -> exists m', 0 <= m' < n /\ mx mk m' = mx mk m /\ my mk m' = my mk m /\
    L (mx mk m) (my mk m) = m'.

(** Every region is connected and contains its marker. *)
Definition connected (w h : Z) (mk : buf (f64 * f64)) (L : Z -> Z -> Z) : Prop :=
  forall x y, inside w h x y -> L x y <> -1 ->
    L (mx mk (L x y)) (my mk (L x y)) = L x y /\
    flows w h (fun u v => L u v = L x y) (mx mk (L x y)) (my mk (L x y)) x y.

(** The regions are those of rising water: whenever water at level [j] reaches a
    pixel from any marker at all, it also does so from the pixel's own marker
    without leaving the pixel's region. *)
Definition watershed_of (w h : Z) (g : Z -> Z -> Z) (mk : buf (f64 * f64)) (n : Z) (L : Z -> Z -> Z) : Prop :=
  forall x y, inside w h x y -> L x y <> -1 ->
    forall j, reached w h g mk n j x y ->
      flows w h (fun u v => L u v = L x y /\ g u v <= j) (mx mk (L x y)) (my mk (L x y)) x y.

(** A pixel of no region touches either no region or at least two. *)
Definition only_boundaries_black (w h : Z) (L : Z -> Z -> Z) : Prop :=
  forall x y u v, inside w h x y -> L x y = -1 -> inside w h u v -> adjacent x y u v -> L u v <> -1 ->
    exists u' v', inside w h u' v' /\ adjacent x y u' v' /\ L u' v' <> -1 /\ L u' v' <> L u v.
