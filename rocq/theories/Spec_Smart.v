(** * Spec_Smart: vocabulary of the theorems about fcv_bw_smart (C71, C72).

    This file does not mention the model of any FlatCV function. *)
From Verif Require Import Base F Heap Spec Spec_Blur.
From Coq Require Import Reals.
Local Open Scope Z_scope.

(** Nearest byte *)
Definition to_byte (v : Z) : Z := Z.max 0 (Z.min 255 v).

(** [d] is how far the gray values [g] of a picture rise above their surroundings,
    offset by 127: 127 + g - m, where m is the mean of the surroundings under a bell
    curve of radius [r], up to rounding down twice. *)
Definition detail (w h : Z) (r : R) (g d : Z -> Z -> Z) : Prop :=
  forall x y, 0 <= x < w -> 0 <= y < h -> exists m, d x y = to_byte (127 + g x y - m) /\
    (mean2 r w h x y (fun x' y' => IZR (g x' y')) - 9 / 4 <= IZR m
     <= mean2 r w h x y (fun x' y' => IZR (g x' y')) + 1 / 4)%R.

(** How far the gray value of a pixel of picture [b] rises above its surroundings. *)
Definition rise (w h : Z) (r : R) (b : buf Z) (x y : Z) : R :=
  (IZR (gray_at b w x y) - mean2 r w h x y (fun x' y' => IZR (gray_at b w x' y')))%R.
