(** * Concrete call chains for the examples of T_Geom.v *)
From Verif Require Import Base F Heap Spec M_Geom ExUtil.

Lemma C05_chain :
  exists b1 b2 b3 b4 b5, calls rotate_90_cw 3 2 (of_list pic32) b1 /\ calls rotate_90_cw 2 3 b1 b2 /\
    calls rotate_90_cw 3 2 b2 b3 /\ calls rotate_90_cw 2 3 b3 b4 /\ calls rotate_180 3 2 (of_list pic32) b5 /\
    to_list b4 = map Some pic32 /\ to_list b5 = to_list b2.
Proof.
  exists (call1 rotate_90_cw 3 2 (of_list pic32)).
  exists (call1 rotate_90_cw 2 3 (call1 rotate_90_cw 3 2 (of_list pic32))).
  exists (call1 rotate_90_cw 3 2 (call1 rotate_90_cw 2 3 (call1 rotate_90_cw 3 2 (of_list pic32)))).
  exists (call1 rotate_90_cw 2 3 (call1 rotate_90_cw 3 2 (call1 rotate_90_cw 2 3
           (call1 rotate_90_cw 3 2 (of_list pic32))))).
  exists (call1 rotate_180 3 2 (of_list pic32)).
  do 5 (split; [apply call1_calls; vm_compute; reflexivity|]).
  split; vm_compute; reflexivity.
Qed.

Lemma C05_chain2 :
  exists b1 b2 b3, calls transpose 3 2 (of_list pic32) b1 /\ calls flip_x 2 3 b1 b2 /\
    calls rotate_90_cw 3 2 (of_list pic32) b3 /\ to_list b3 = to_list b2.
Proof.
  exists (call1 transpose 3 2 (of_list pic32)).
  exists (call1 flip_x 2 3 (call1 transpose 3 2 (of_list pic32))).
  exists (call1 rotate_90_cw 3 2 (of_list pic32)).
  do 3 (split; [apply call1_calls; vm_compute; reflexivity|]).
  vm_compute; reflexivity.
Qed.
