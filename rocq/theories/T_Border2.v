(** * Theorems: borders around borders *)
From Verif Require Import Base F Heap Spec Spec_Trim Spec_Ops Spec_Parse M_Draw P_Border2 ExUtil T_Rel.
From Coq Require Import String.
Local Open Scope string_scope.
Local Open Scope list_scope.
Local Open Scope Z_scope.

(** ** C130: two borders of one colour are one border. *)
Theorem C130_borders : forall w h ch hex m n b w1 h1 b1 w2 h2 b2 w3 h3 b3,
  0 < w -> 0 < h -> (ch = 1 \/ ch = 3 \/ ch = 4) -> 0 < m -> 0 < n -> (w + 2 * (m + n)) * (h + 2 * (m + n)) * ch <= 4294967296 ->
  image (w * h * ch) b -> borders hex ch m w h b w1 h1 b1 -> borders hex ch n w1 h1 b1 w2 h2 b2 -> borders hex ch (m + n) w h b w3 h3 b3 ->
  w2 = w3 /\ h2 = h3 /\ same_bytes (w3 * h3 * ch) b2 b3.
Proof. exact borders_add. Qed.
Print Assumptions C130_borders.

(** A 2x1 gray picture with borders of 1 and 2 pixels, and of 3 *)
Definition bord (n : Z) : Z -> Z -> ptr -> M (ptr * Z * Z) := fun w h p => add_border w h 1 (Some (txt "#00ff00")) n p 0 0.
Definition bord_buf (n w h : Z) (b : buf Z) : buf Z := sized_buf (bord n w h (Ptr 0) (stb b)).
Example C130_ex : let b := of_list [1; 2] in let b1 := bord_buf 1 2 1 b in
  image (2 * 1 * 1) b /\ (2 + 2 * (1 + 2)) * (1 + 2 * (1 + 2)) * 1 <= 4294967296 /\
  borders (txt "#00ff00") 1 1 2 1 b 4 3 b1 /\ borders (txt "#00ff00") 1 2 4 3 b1 8 7 (bord_buf 2 4 3 b1) /\
  borders (txt "#00ff00") 1 (1 + 2) 2 1 b 8 7 (bord_buf (1 + 2) 2 1 b) /\
  to_list b1 = map Some [149;149;149;149; 149;1;2;149; 149;149;149;149] /\
  to_list (bord_buf 2 4 3 b1) = to_list (bord_buf (1 + 2) 2 1 b).
Proof.
  cbv zeta. split; [apply image_of_list; reflexivity|]. split; [lia|].
  split; [apply (sized_calls (bord 1)); vm_compute; reflexivity|].
  split; [apply (sized_calls (bord 2)); vm_compute; reflexivity|].
  split; [apply (sized_calls (bord (1 + 2))); vm_compute; reflexivity|].
  split; vm_compute; reflexivity.
Qed.
