(** * Spec_Morph: vocabulary for the morphology properties *)
From Verif Require Import Base Spec.

(** The disk of radius r + 1/2 around the origin: dx^2 + dy^2 <= (r + 1/2)^2. *)
Definition disk (r dx dy : Z) : Prop := 4 * (dx * dx + dy * dy) <= (2 * r + 1) * (2 * r + 1).

Definition inside (w h x y : Z) : Prop := 0 <= x < w /\ 0 <= y < h.

(** Pixel (x,y) of a one-channel picture is white. *)
Definition white (b : buf Z) (w x y : Z) : Prop := pix b w 1 x y 0 = Some 255.

(** [b] is a picture of exactly [w]x[h] pixels, each black or white, whose white
    pixels are those with [P x y]. *)
Definition bw_picture (w h : Z) (b : buf Z) (P : Z -> Z -> Prop) : Prop :=
  exact_image (w * h) b /\
  forall x y, inside w h x y ->
    (white b w x y <-> P x y) /\ (white b w x y \/ pix b w 1 x y 0 = Some 0).

(** Some pixel of the picture in the disk around (x,y) is in [A]. *)
Definition dilated (w h r : Z) (A : Z -> Z -> Prop) (x y : Z) : Prop :=
  exists x' y', inside w h x' y' /\ disk r (x' - x) (y' - y) /\ A x' y'.

(** The disk around (x,y) lies inside the picture and in [A]. *)
Definition eroded (w h r : Z) (A : Z -> Z -> Prop) (x y : Z) : Prop :=
  forall x' y', disk r (x' - x) (y' - y) -> inside w h x' y' /\ A x' y'.

(** The same when the picture is continued by repeating its border pixels. *)
Definition clampZ (n v : Z) : Z := Z.max 0 (Z.min (n - 1) v).
Definition eroded_rep (w h r : Z) (A : Z -> Z -> Prop) (x y : Z) : Prop :=
  forall x' y', disk r (x' - x) (y' - y) -> A (clampZ w x') (clampZ h y').

(** Sizes and radii for which the int arithmetic of the code is defined. *)
Definition morph_ok (w h r : Z) : Prop :=
  0 < w /\ 0 < h /\ w * h <= 2147483647 /\ 0 <= r <= 32767 /\ w + r <= 2147483648 /\ h + r <= 2147483648.
