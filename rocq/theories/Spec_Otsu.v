(** * Spec_Otsu: how well a threshold separates dark from bright pixels (C90, C91)

    This file does not mention the model of any FlatCV function. *)
From Coq Require Import Reals.
From Verif Require Import Base F Heap Spec Spec_Color.
Local Open Scope Z_scope.

(** f 0 + f 1 + ... + f (k - 1) *)
Fixpoint sum_upto (f : Z -> Z) (k : nat) : Z :=
  match k with O => 0 | S k => sum_upto f k + f (Z.of_nat k) end.
(** The sum of [f v] over the gray levels [v] up to [t], and over those above *)
Definition sum_dark (f : Z -> Z) (t : Z) : Z := sum_upto f (Z.to_nat (t + 1)).
Definition sum_bright (f : Z -> Z) (t : Z) : Z := sum_upto f 256 - sum_dark f t.

(** Otsu's between-class variance: [c v] pixels have level [v]; the dark pixels are
    those of level at most [t].  It is the product of the shares of dark and bright
    pixels and of the squared difference of their mean levels; 0 if there are no
    pixels on one side. *)
Definition separation (c : Z -> Z) (t : Z) : R :=
  let n0 := sum_dark c t in
  let n1 := sum_bright c t in
  let mean0 := (IZR (sum_dark (fun v => (v * c v)%Z) t) / IZR n0)%R in
  let mean1 := (IZR (sum_bright (fun v => (v * c v)%Z) t) / IZR n1)%R in
  if (n0 =? 0) || (n1 =? 0) then 0%R
  else (IZR n0 / IZR (n0 + n1) * (IZR n1 / IZR (n0 + n1)) * ((mean0 - mean1) * (mean0 - mean1)))%R.

(** How many pixels of a [w] x [h] picture with gray levels [g] have level [v] *)
Definition pixels_with (w h : Z) (g : Z -> Z -> Z) (v : Z) : Z := count_px w h (fun x y => g x y =? v).

(** No threshold separates the picture much better than [t]: by at most 40 square
    levels.  (In pictures of more than 32768 pixels, separations up to 2600 may be
    missed.) *)
Definition best_split (w h : Z) (g : Z -> Z -> Z) (t : Z) : Prop :=
  0 <= t < 256 /\ forall t', 0 <= t' < 256 ->
    (separation (pixels_with w h g) t' <= separation (pixels_with w h g) t + 40)%R \/
    (32768 < w * h /\ (separation (pixels_with w h g) t' <= 2600)%R).

(** What single and double thresholding make of a gray level.  In double mode the
    band t-16..t+16 wraps around modulo 256 when t < 16 or t > 239 (see C19). *)
Definition single_map (t v : Z) : Z := if t <? v then 255 else 0.
Definition double_map (t v : Z) : Z :=
  if t <? 16 then (if v <? t + 240 then 0 else 255)
  else if 239 <? t then (if v <? t - 16 then 0 else 255)
  else dbl_map (t - 16) (t + 16) v.
