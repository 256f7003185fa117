(** * Spec_Sobel: vocabulary of the edge-detection theorems (C45, C68).

    This file does not mention the model of any FlatCV function. *)
From Verif Require Import Base F Heap Spec.
From Coq Require Import Reals.
Local Open Scope Z_scope.

(** The nearest index within [0, n - 1] *)
Definition nearest_in (n i : Z) : Z := Z.max 0 (Z.min (n - 1) i).

(** Sobel's two derivatives at ([x], [y]) of a gray picture [G] of size [w] x
    [h], whose border pixels continue outwards *)
Definition around (w h : Z) (G : Z -> Z -> Z) (x y dx dy : Z) : Z :=
  G (nearest_in w (x + dx)) (nearest_in h (y + dy)).
Definition grad_x (w h : Z) (G : Z -> Z -> Z) (x y : Z) : Z :=
  let a := around w h G x y in
  (a 1 (-1) + 2 * a 1 0 + a 1 1) - (a (-1) (-1) + 2 * a (-1) 0 + a (-1) 1).
Definition grad_y (w h : Z) (G : Z -> Z -> Z) (x y : Z) : Z :=
  let a := around w h G x y in
  (a (-1) 1 + 2 * a 0 1 + a 1 1) - (a (-1) (-1) + 2 * a 0 (-1) + a 1 (-1)).
(** Square of the strength of the edge *)
Definition strength2 (w h : Z) (G : Z -> Z -> Z) (x y : Z) : Z :=
  grad_x w h G x y * grad_x w h G x y + grad_y w h G x y * grad_y w h G x y.

(** [lo] and [hi] are the least and the greatest squared strength. *)
Definition extremes (w h : Z) (G : Z -> Z -> Z) (lo hi : Z) : Prop :=
  (exists x y, 0 <= x < w /\ 0 <= y < h /\ strength2 w h G x y = lo) /\
  (exists x y, 0 <= x < w /\ 0 <= y < h /\ strength2 w h G x y = hi) /\
  forall x y, 0 <= x < w -> 0 <= y < h -> lo <= strength2 w h G x y <= hi.

(** The strength, scaled so that the weakest edge of the picture becomes 0 and
    the strongest 255 *)
Definition scaled (lo hi v : Z) : R :=
  (255 * ((sqrt (IZR v) - sqrt (IZR lo)) / (sqrt (IZR hi) - sqrt (IZR lo))))%R.

(** [b'] shows the edges of the gray picture [G]: if all edges are equally
    strong, it is black; otherwise every value is the scaled strength rounded down
    (within a tolerance), exactly 0 for the weakest and 255 for the strongest
    edges, and never smaller for a stronger edge. *)
Definition edges_of (w h : Z) (G : Z -> Z -> Z) (b' : buf Z) : Prop :=
  exact_image (w * h) b' /\
  exists lo hi, extremes w h G lo hi /\
    (forall x y, 0 <= x < w -> 0 <= y < h -> exists v, pix b' w 1 x y 0 = Some v /\
       (lo = hi -> v = 0) /\
       (strength2 w h G x y = lo -> v = 0) /\
       (lo < hi -> strength2 w h G x y = hi -> v = 255) /\
       (lo < hi -> (scaled lo hi (strength2 w h G x y) - 1 - 1 / 1000 <= IZR v
                    <= scaled lo hi (strength2 w h G x y) + 1 / 1000)%R)) /\
    (forall x y x' y', 0 <= x < w -> 0 <= y < h -> 0 <= x' < w -> 0 <= y' < h ->
       strength2 w h G x y <= strength2 w h G x' y' -> pixv b' w 1 x y 0 <= pixv b' w 1 x' y' 0).
