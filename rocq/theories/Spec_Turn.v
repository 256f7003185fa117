(** * Spec_Turn: rectangles in turned pictures (C124) *)
From Verif Require Import Base Spec_Rel.
Local Open Scope Z_scope.

(** The [cw] x [ch] rectangle whose left upper pixel is ([x], [y]) in a [w] x [h] picture:
    where its left upper pixel is after turning the picture *)
Definition turned_left (o : turning) (w h x y cw ch : Z) : Z :=
  match o with
  | Mirror_x | Half_turn => w - (x + cw)
  | Mirror_y => x
  | Transposed | Left_turn => y
  | Transversed | Right_turn => h - (y + ch)
  end.
Definition turned_top (o : turning) (w h x y cw ch : Z) : Z :=
  match o with
  | Mirror_x => y
  | Mirror_y | Half_turn => h - (y + ch)
  | Transposed | Right_turn => x
  | Transversed | Left_turn => w - (x + cw)
  end.
