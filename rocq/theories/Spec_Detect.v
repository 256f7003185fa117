(** * Spec_Detect: vocabulary of the corner detection theorems (C50).

    This file does not mention the model of any FlatCV function. *)
From Coq Require Import Reals.
From Verif Require Import Base F Heap Spec Spec_Morph Spec_Draw Spec_Watershed Spec_Corners.
From Verif Require Spec_Resize Spec_Blur Spec_Sobel Spec_Foerstner Spec_Peaks.
Local Open Scope Z_scope.

(** RGBA picture [g] shows [b] in shades of gray. *)
Definition gray_picture (w h : Z) (b g : buf Z) : Prop :=
  exact_image (w * h * 4) g /\
  forall x y, 0 <= x < w -> 0 <= y < h -> opaque_gray g w x y (gray_at b w x y).

(** The factor that makes [n] columns (or rows) 256 *)
Definition to_256 (n : Z) : f64 := ddiv (d_of_Z 256) (d_of_Z n).

(** [e] shows the edges of [b] on [ow] x [oh] pixels (about 256 x 256), after a
    slight blur, with a black disk in the middle. *)
Definition edge_map (w h : Z) (b : buf Z) (ow oh : Z) (e : buf Z) : Prop :=
  ow = Spec_Resize.out_size w (to_256 w) /\ oh = Spec_Resize.out_size h (to_256 h) /\
  255 <= ow <= 256 /\ 255 <= oh <= 256 /\
  exists g small soft edge D,
    gray_picture w h b g /\
    Spec_Resize.resized w h (to_256 w) (to_256 h) g small /\
    Spec_Blur.blurred ow oh 3 small soft /\
    Spec_Sobel.edges_of ow oh (fun x y => gray_at soft ow x y) edge /\
    disk_like 24 D /\
    painted ow oh 1 (fun _ => 0) (fun x y => D (x - ow / 2) (y - oh / 2)) edge e /\
    exact_image (ow * oh) e.

(** [framed] is [e] with a black border, and [mk] marks its middle and its
    top-left corner. *)
Definition framed_map (ow oh : Z) (e framed : buf Z) (mk : buf (f64 * f64)) : Prop :=
  bordered ow oh 1 1 (fun _ => 0) e (ow + 2) (oh + 2) framed /\
  mx mk 0 = (ow + 2) / 2 /\ my mk 0 = (oh + 2) / 2 /\ mx mk 1 = 0 /\ my mk 1 = 0.

(** [L] divides a picture into the regions of the two markers by rising water. *)
Definition two_regions (w h : Z) (b : buf Z) (mk : buf (f64 * f64)) (L : Z -> Z -> Z) : Prop :=
  seeded 2 mk L /\ connected w h mk L /\ watershed_of w h (fun x y => pixv b w 1 x y 0) mk 2 L.

(** Pixel ([x], [y]) belongs to the region in the middle: the document *)
Definition document (L : Z -> Z -> Z) (x y : Z) : Prop := L (x + 1) (y + 1) = 0.

(** [closed] shows the document in white, with holes and notches filled by a disk
    of radius 12. *)
Definition closed_document (ow oh : Z) (L : Z -> Z -> Z) (closed : buf Z) : Prop :=
  bw_picture ow oh closed (eroded_rep ow oh 12 (dilated ow oh 12 (document L))).

(** The thresholds of the successive rounds: 0.05 less each time, at least 0.01 *)
Definition lowered (t : f64) : f64 :=
  let t' := dsub t (lit 5 100) in if dlt t' (lit 1 100) then lit 1 100 else t'.
Fixpoint threshold (t : f64) (k : nat) : f64 := match k with O => t | S k => lowered (threshold t k) end.

(** [l] are the peaks found in round [k]: *)
Definition peaks_in_round (ow oh : Z) (resp : buf Z) (k : nat) (l : list (Z * Z)) : Prop :=
  Spec_Peaks.peaks_of ow oh resp 16 (threshold (lit 4 10) k) (threshold (lit 2 10) k) l.
(** ... in the first round in which there are at least four, or in the eighth, which is
    the last *)
Definition peaks_found (ow oh : Z) (resp : buf Z) (l : list (Z * Z)) : Prop :=
  exists k, (k <= 7)%nat /\ peaks_in_round ow oh resp k l /\
    (forall j, (j < k)%nat -> exists l', peaks_in_round ow oh resp j l' /\ (length l' < 4)%nat) /\
    ((4 <= length l)%nat \/ k = 7%nat).

(** Absolute value, in degrees, of the angle at the [k]-th corner of the closed
    polygon [l], as computed from the cross product by means of [asin] *)
Definition cyc (l : list (f64 * f64)) (k : nat) : f64 * f64 := nth (k mod length l) l (d0, d0).
Definition bend (asin : f64 -> f64) (l : list (f64 * f64)) (k : nat) : f64 :=
  let v p q : f64 * f64 := (dsub (fst p) (fst q), dsub (snd p) (snd q)) in
  let len p := dsqrt (dadd (dmul (fst p) (fst p)) (dmul (snd p) (snd p))) in
  let a := v (cyc l (k + length l - 1)) (cyc l k) in
  let b := v (cyc l (k + 1)) (cyc l k) in
  if deq (len a) d0 || deq (len b) d0 then dabs d0 else
  let c := ddiv (dsub (dmul (fst a) (snd b)) (dmul (snd a) (fst b))) (dmul (len a) (len b)) in
  let c := if dlt d1 c then d1 else c in
  let c := if dlt c (dneg d1) then dneg d1 else c in
  dabs (ddiv (dmul (asin c) (d_of_Z 180)) dpi).

(** [c] are four of the peaks [l], scaled back to a [w] x [h] picture, in clockwise
    order; no peak that was left out has a larger angle than one of the four. *)
Definition best_four (at2 : f64 -> f64 -> f64) (asin : f64 -> f64) (w h ow oh : Z) (l : list (Z * Z)) (c : corners) : Prop :=
  exists l' k0 k1 k2 k3,
    sorted_clockwise at2 (map zpt l) l' /\
    (k0 < k1 < k2 /\ k2 < k3 < length l')%nat /\
    c = mkc (scaled w h ow oh (nth k0 l' (d0, d0))) (scaled w h ow oh (nth k1 l' (d0, d0)))
            (scaled w h ow oh (nth k2 l' (d0, d0))) (scaled w h ow oh (nth k3 l' (d0, d0))) /\
    ((forall k, (k < length l')%nat -> dfinite (bend asin l' k) = true) ->
     forall i j, In i [k0; k1; k2; k3] -> (j < length l')%nat -> ~ In j [k0; k1; k2; k3] ->
       dlt (bend asin l' i) (bend asin l' j) = false).

(** Everything that was in memory is still there, unchanged. *)
Definition keeps (s s' : st) : Prop := forall i, mem s i <> None -> mem s' i = mem s i.
(** ... and there are just two new blocks. *)
Definition leaks_two (s s' : st) : Prop := exists j k, j <> k /\ mem s j = None /\ mem s k = None /\
  mem s' j <> None /\ mem s' k <> None /\ forall i, i <> j -> i <> k -> mem s' i = mem s i.

(** A black picture, of any transparency *)
Definition all_black (w h : Z) (b : buf Z) : Prop :=
  forall x y c, inside w h x y -> 0 <= c < 3 -> pix b w 4 x y c = Some 0.

(** What fcv_detect_corners should make of the [w] x [h] picture [b]: *)
Definition detection (at2 : f64 -> f64 -> f64) (asin : f64 -> f64) (w h : Z) (b : buf Z) (s : st) (run : res (corners * st)) : Prop :=
  exists ow oh e framed mk L,
    edge_map w h b ow oh e /\ framed_map ow oh e framed mk /\ two_regions (ow + 2) (oh + 2) framed mk L /\
    (** the program is ended because there is no background, *)
    ((run = Abort /\ forall x y, inside ow oh x y -> document L x y) \/
     exists closed resp l,
       closed_document ow oh L closed /\ Spec_Foerstner.corner_picture ow oh 2 closed resp /\ peaks_found ow oh resp l /\
       (** or there are at least four peaks and four of them are returned, *)
       (((4 <= length l)%nat /\ exists c s', run = Ok (c, s') /\ best_four at2 asin w h ow oh l c /\ keeps s s' /\ leaks_two s s') \/
       (** or there are fewer, and the behaviour is undefined. *)
        ((length l < 4)%nat /\ exists u, run = UB u))).
