(** * Theorems: disks over circles *)
From Verif Require Import Base F Heap Spec Spec_Parse Spec_Draw M_Draw P_Nested2 ExUtil T_TileDraw T_Nested.
From Coq Require Import String.
Local Open Scope string_scope.
Local Open Scope list_scope.
Local Open Scope Z_scope.

(** ** C131, continued: a disk hides circles of the same or a smaller radius as well.
    Missing: circles of radius below 1. *)
Theorem C131_circle_partial : forall w h ch hex hex' r r' cx cy cx' cy' s p b s1 b1 s2 b2 s3 b3,
  draw_ok w h ch r cx cy -> draw_ok w h ch r' cx' cy' -> 1 <= int_part r -> int_part r <= int_part r' ->
  int_part cx = int_part cx' -> int_part cy = int_part cy' -> holds s p b -> w * h * ch <= blen b ->
  draw_circle w h ch (Some hex) r cx cy p s = Ok (tt, s1) -> holds s1 p b1 ->
  draw_disk w h ch (Some hex') r' cx' cy' p s1 = Ok (tt, s2) -> holds s2 p b2 ->
  draw_disk w h ch (Some hex') r' cx' cy' p s = Ok (tt, s3) -> holds s3 p b3 ->
  blen b2 = blen b3 /\ forall j, bget b2 j = bget b3 j.
Proof. exact circle_over. Qed.
Print Assumptions C131_circle_partial.

(** A white circle of radius 2 about (3, 2) in a 7x5 picture and a black disk of radius 2 over it *)
Definition hoop : st := drawn (draw_circle 7 5 1 (Some (txt "#ffffff")) (d_of_Z 2) (d_of_Z 3) (d_of_Z 2) (Ptr 0) (stb gray75)).
Definition covered_hoop : st := drawn (spot "#000000" 2 hoop).
Example C131_circle_ex :
  draw_ok 7 5 1 (d_of_Z 2) (d_of_Z 3) (d_of_Z 2) /\ int_part (d_of_Z 2) = 2 /\ holds (stb gray75) (Ptr 0) gray75 /\ 7 * 5 * 1 <= blen gray75 /\
  draw_circle 7 5 1 (Some (txt "#ffffff")) (d_of_Z 2) (d_of_Z 3) (d_of_Z 2) (Ptr 0) (stb gray75) = Ok (tt, hoop) /\ holds hoop (Ptr 0) (blk0 hoop) /\
  spot "#000000" 2 hoop = Ok (tt, covered_hoop) /\ holds covered_hoop (Ptr 0) (blk0 covered_hoop) /\
  spot "#000000" 2 (stb gray75) = Ok (tt, last_spot 2) /\ holds (last_spot 2) (Ptr 0) (blk0 (last_spot 2)) /\
  to_list (blk0 hoop) = map Some [9;9;255;255;255;9;9; 9;255;9;9;9;255;9; 9;255;9;9;9;255;9; 9;255;9;9;9;255;9; 9;9;255;255;255;9;9] /\
  to_list (blk0 covered_hoop) = to_list (blk0 (last_spot 2)).
Proof.
  split; [unfold draw_ok; split; [lia|]; split; [lia|]; split; [auto|]; do 4 (split; [vm_compute; reflexivity|]);
    do 2 (split; [vm_compute; congruence|]); vm_compute; congruence|].
  split; [vm_compute; reflexivity|]. split; [exists 0; split; reflexivity|]. split; [vm_compute; congruence|].
  do 3 (split; [vm_compute; reflexivity|]; split; [eexists; split; [reflexivity|vm_compute; reflexivity]|]).
  split; vm_compute; reflexivity.
Qed.
