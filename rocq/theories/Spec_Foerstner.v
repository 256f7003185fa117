(** * Spec_Foerstner: vocabulary of the theorems about the Foerstner corner measure
    (C51, C78, C79).

    This file does not mention the model of any FlatCV function. *)
From Verif Require Import Base F Heap Spec.
From Coq Require Import Reals.
From Flocq Require Import Core.
Local Open Scope Z_scope.

(** Gray value at column [x], row [y] of a picture with one byte per pixel *)
Definition gray1 (b : buf Z) (w x y : Z) : Z := pixv b w 1 x y 0.

(** Eight times the slope of the brightness along x and along y (Sobel's operator);
    zero on the border of the picture. *)
Definition off_border (w h x y : Z) : bool := (1 <=? x) && (x <? w - 1) && (1 <=? y) && (y <? h - 1).
Definition slope_x (b : buf Z) (w h x y : Z) : Z :=
  if off_border w h x y then
    (gray1 b w (x + 1) (y - 1) - gray1 b w (x - 1) (y - 1)) +
    2 * (gray1 b w (x + 1) y - gray1 b w (x - 1) y) +
    (gray1 b w (x + 1) (y + 1) - gray1 b w (x - 1) (y + 1))
  else 0.
Definition slope_y (b : buf Z) (w h x y : Z) : Z :=
  if off_border w h x y then
    (gray1 b w (x - 1) (y + 1) - gray1 b w (x - 1) (y - 1)) +
    2 * (gray1 b w x (y + 1) - gray1 b w x (y - 1)) +
    (gray1 b w (x + 1) (y + 1) - gray1 b w (x + 1) (y - 1))
  else 0.

(** [f lo + f (lo + 1) + ...], [n] terms, and the sum of [f] over the square of
    2k + 1 by 2k + 1 pixels around (x, y) *)
Fixpoint zsum (n : nat) (lo : Z) (f : Z -> Z) : Z :=
  match n with O => 0 | S n' => f lo + zsum n' (lo + 1) f end.
Definition window (k x y : Z) (f : Z -> Z -> Z) : Z :=
  zsum (Z.to_nat (2 * k + 1)) (- k) (fun dy => zsum (Z.to_nat (2 * k + 1)) (- k) (fun dx => f (x + dx) (y + dy))).

(** The structure tensor of the window, times 64 (2k + 1)^2 *)
Definition tens_xx b w h k x y := window k x y (fun i j => slope_x b w h i j * slope_x b w h i j).
Definition tens_xy b w h k x y := window k x y (fun i j => slope_x b w h i j * slope_y b w h i j).
Definition tens_yy b w h k x y := window k x y (fun i j => slope_y b w h i j * slope_y b w h i j).
Definition tens_det b w h k x y : Z :=
  tens_xx b w h k x y * tens_yy b w h k x y - tens_xy b w h k x y * tens_xy b w h k x y.
Definition tens_tr b w h k x y : Z := tens_xx b w h k x y + tens_yy b w h k x y.

(** All slopes in the window are along one axis, or all along one diagonal: at most a
    straight edge is there (or nothing). *)
Definition one_way b w h k x y : Prop :=
  tens_xx b w h k x y = 0 \/ tens_yy b w h k x y = 0 \/
  (tens_xx b w h k x y = Z.abs (tens_xy b w h k x y) /\ tens_yy b w h k x y = Z.abs (tens_xy b w h k x y)).

(** The brightness changes in one direction only: along x, along y, or along one of
    the two diagonals. *)
Definition striped (b : buf Z) (w h : Z) : Prop :=
  (exists f, forall x y, 0 <= x < w -> 0 <= y < h -> gray1 b w x y = f x) \/
  (exists f, forall x y, 0 <= x < w -> 0 <= y < h -> gray1 b w x y = f y) \/
  (exists f, forall x y, 0 <= x < w -> 0 <= y < h -> gray1 b w x y = f (x + y)) \/
  (exists f, forall x y, 0 <= x < w -> 0 <= y < h -> gray1 b w x y = f (x - y)).

(** Does the window lie within the picture? *)
Definition fits (w h k x y : Z) : bool := (k <=? x) && (x <? w - k) && (k <=? y) && (y <? h - k).

(** Foerstner's two measures: det A / trace A (how strong the corner is) and
    4 det A / (trace A)^2 (how round it is), A being the mean over the window of
    the squared slopes; zero where the brightness is constant and where the window
    does not fit. *)
Definition strength (b : buf Z) (w h k x y : Z) : R :=
  if fits w h k x y && negb (tens_tr b w h k x y =? 0)
  then (IZR (tens_det b w h k x y) / (IZR (64 * ((2 * k + 1) * (2 * k + 1))) * IZR (tens_tr b w h k x y)))%R
  else 0%R.
Definition roundness (b : buf Z) (w h k x y : Z) : R :=
  if fits w h k x y && negb (tens_tr b w h k x y =? 0)
  then (4 * IZR (tens_det b w h k x y) / (IZR (tens_tr b w h k x y) * IZR (tens_tr b w h k x y)))%R
  else 0%R.

(** [m] is the largest value of [f] over a w-by-h picture. *)
Definition largest (w h : Z) (f : Z -> Z -> R) (m : R) : Prop :=
  (forall x y, 0 <= x < w -> 0 <= y < h -> (f x y <= m)%R) /\
  exists x y, 0 <= x < w /\ 0 <= y < h /\ f x y = m.

(** Channel [c] of the two-channel picture [b'] shows [f], scaled so that the
    largest value becomes 255, rounded down. *)
Definition shows (w h : Z) (b' : buf Z) (c : Z) (f : Z -> Z -> R) : Prop :=
  forall m, largest w h f m -> (1 / 1000 <= m)%R ->
    forall x y, 0 <= x < w -> 0 <= y < h -> exists v, pix b' w 2 x y c = Some v /\
      (255 * f x y / m - 101 / 100 <= IZR v <= 255 * f x y / m + 1 / 100)%R.

(** Half the width of the window for a given sigma: 3 sigma (as a double) rounded
    down, made odd, but at least 3, halved *)
Definition half_window (sigma : f64) : Z := Z.max 3 (Z.lor (Ztrunc (B2R (dmul (d_of_Z 3) sigma))) 1) / 2.
(** A sigma for which that is an int32_t *)
Definition sigma_ok (sigma : f64) : Prop := is_finite sigma = true /\ (-700000000 <= B2R sigma <= 700000000)%R.

(** The picture [b'] of two bytes per pixel is what fcv_foerstner_corner should
    make of the gray picture [b] with windows of 2k + 1 by 2k + 1 pixels. *)
Definition corner_picture (w h k : Z) (b b' : buf Z) : Prop :=
  exact_image (w * h * 2) b' /\
  (forall x y, 0 <= x < w -> 0 <= y < h -> fits w h k x y = false \/ one_way b w h k x y ->
     pix b' w 2 x y 0 = Some 0 /\ pix b' w 2 x y 1 = Some 0) /\
  (k <= 5000 -> shows w h b' 0 (strength b w h k) /\ shows w h b' 1 (roundness b w h k)).
