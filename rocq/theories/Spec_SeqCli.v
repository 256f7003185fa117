(** * Specification of command lines that turn a picture *)
From Coq Require Import Reals String.
From Verif Require Import Base F Heap Spec M_Parse Spec_Draw Spec_Cli Spec_Parse Spec_Apply Spec_Rel Spec_Seq.
Local Open Scope string_scope.
Local Open Scope list_scope.
Local Open Scope Z_scope.

(** The turnings that an operation stands for *)
Inductive stands_for (o : pipeline_op) : list turning -> Prop :=
| for_flip_x : named o "flip_x" -> stands_for o [Mirror_x]
| for_flip_y : named o "flip_y" -> stands_for o [Mirror_y]
| for_rotate a k : named o "rotate" -> op_p1 o = Some a -> dfinite a = true -> is_i32 (int_part a) -> int_part a = 90 * k ->
    stands_for o (repeat Right_turn (Z.to_nat (k mod 4))).

(** The turning that the orientation tag of a JPEG file asks for, as the picture viewers
    describe it *)
Definition by_tag (o : Z) : list turning :=
  match o with
  | 2 => [Mirror_x] | 3 => [Half_turn] | 4 => [Mirror_y] | 5 => [Transposed]
  | 6 => [Right_turn] | 7 => [Transversed] | 8 => [Left_turn] | _ => []
  end.

(** ** Turnings mixed with operations that treat all directions alike *)
Definition evenhanded (o : pipeline_op) : Prop :=
  exists n, named o n /\ In n ["grayscale"; "erode"; "dilate"; "close"; "open"; "border"].
(** The operations [ops] are, in some mixture, turnings that stand for [ts] and the
    operations [fs], both in their order. *)
Inductive mixture : list pipeline_op -> list turning -> list pipeline_op -> Prop :=
| mix_none : mixture [] [] []
| mix_turn o t ops ts fs : stands_for o t -> mixture ops ts fs -> mixture (o :: ops) (t ++ ts) fs
| mix_other o ops ts fs : evenhanded o -> mixture ops ts fs -> mixture (o :: ops) ts (o :: fs).
