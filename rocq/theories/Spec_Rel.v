(** * Spec_Rel: vocabulary of the theorems about combinations of functions (C96-C102)

    This file does not mention the model of any FlatCV function. *)
From Verif Require Import Base F Heap Spec Spec_Trim Spec_Morph.

(** The seven ways of turning a picture *)
Inductive turning := Mirror_x | Mirror_y | Half_turn | Transposed | Transversed | Right_turn | Left_turn.

(** Size of a [w] x [h] picture after turning *)
Definition swaps (o : turning) : bool := match o with Mirror_x | Mirror_y | Half_turn => false | _ => true end.
Definition tw (o : turning) (w h : Z) : Z := if swaps o then h else w.
Definition th (o : turning) (w h : Z) : Z := if swaps o then w else h.

(** Where the pixel at ([x], [y]) of the turned picture was in the [w] x [h] picture *)
Definition from_x (o : turning) (w h x y : Z) : Z :=
  match o with
  | Mirror_x | Half_turn => w - 1 - x
  | Mirror_y => x
  | Transposed | Right_turn => y
  | Transversed | Left_turn => w - 1 - y
  end.
Definition from_y (o : turning) (w h x y : Z) : Z :=
  match o with
  | Mirror_x => y
  | Mirror_y | Half_turn => h - 1 - y
  | Transposed | Left_turn => x
  | Transversed | Right_turn => h - 1 - x
  end.

(** The turning that undoes a turning *)
Definition undo (o : turning) : turning :=
  match o with Right_turn => Left_turn | Left_turn => Right_turn | o => o end.
