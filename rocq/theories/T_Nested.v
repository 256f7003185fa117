(** * Theorems: disks over disks *)
From Verif Require Import Base F Heap Spec Spec_Parse Spec_Draw M_Draw P_Nested ExUtil T_TileDraw.
From Coq Require Import String.
Local Open Scope string_scope.
Local Open Scope list_scope.
Local Open Scope Z_scope.

(** ** C131: a disk hides a smaller one about the same centre, of whatever colour.
    Missing: smaller disks of radius below 1. *)
Theorem C131_hidden_partial : forall w h ch hex hex' r r' cx cy cx' cy' s p b s1 b1 s2 b2 s3 b3,
  draw_ok w h ch r cx cy -> draw_ok w h ch r' cx' cy' -> 1 <= int_part r -> int_part r <= int_part r' ->
  int_part cx = int_part cx' -> int_part cy = int_part cy' -> holds s p b -> w * h * ch <= blen b ->
  draw_disk w h ch (Some hex) r cx cy p s = Ok (tt, s1) -> holds s1 p b1 ->
  draw_disk w h ch (Some hex') r' cx' cy' p s1 = Ok (tt, s2) -> holds s2 p b2 ->
  draw_disk w h ch (Some hex') r' cx' cy' p s = Ok (tt, s3) -> holds s3 p b3 ->
  blen b2 = blen b3 /\ forall j, bget b2 j = bget b3 j.
Proof. exact disk_over. Qed.
Print Assumptions C131_hidden_partial.

(** A 7x5 gray picture; a white disk of radius [r] about (3, 2), then a black one of radius [r']. *)
Definition spot (hex : string) (r : Z) (s : st) : res (unit * st) := draw_disk 7 5 1 (Some (txt hex)) (d_of_Z r) (d_of_Z 3) (d_of_Z 2) (Ptr 0) s.
Definition gray75 : buf Z := of_list (repeat 9 35).
Definition first_spot (r : Z) : st := drawn (spot "#ffffff" r (stb gray75)).
Definition both_spots (r r' : Z) : st := drawn (spot "#000000" r' (first_spot r)).
Definition last_spot (r' : Z) : st := drawn (spot "#000000" r' (stb gray75)).
Definition spots (r r' : Z) : Prop :=
  draw_ok 7 5 1 (d_of_Z r) (d_of_Z 3) (d_of_Z 2) /\ draw_ok 7 5 1 (d_of_Z r') (d_of_Z 3) (d_of_Z 2) /\
  int_part (d_of_Z r) = r /\ int_part (d_of_Z r') = r' /\ holds (stb gray75) (Ptr 0) gray75 /\ 7 * 5 * 1 <= blen gray75 /\
  spot "#ffffff" r (stb gray75) = Ok (tt, first_spot r) /\ holds (first_spot r) (Ptr 0) (blk0 (first_spot r)) /\
  spot "#000000" r' (first_spot r) = Ok (tt, both_spots r r') /\ holds (both_spots r r') (Ptr 0) (blk0 (both_spots r r')) /\
  spot "#000000" r' (stb gray75) = Ok (tt, last_spot r') /\ holds (last_spot r') (Ptr 0) (blk0 (last_spot r')).
Ltac spotted := unfold spots;
  do 2 (split; [unfold draw_ok; split; [lia|]; split; [lia|]; split; [auto|]; do 4 (split; [vm_compute; reflexivity|]);
    do 2 (split; [vm_compute; congruence|]); vm_compute; congruence|]);
  do 2 (split; [vm_compute; reflexivity|]); split; [exists 0; split; reflexivity|]; split; [vm_compute; congruence|];
  do 2 (split; [vm_compute; reflexivity|]; split; [eexists; split; [reflexivity|vm_compute; reflexivity]|]);
  split; [vm_compute; reflexivity|]; eexists; split; [reflexivity|vm_compute; reflexivity].
Lemma spots_1_2 : spots 1 2. Proof. spotted. Qed.
Lemma spots_0_1 : spots 0 1. Proof. spotted. Qed.

Example C131_ex : spots 1 2 /\ 1 <= 1 /\ 1 <= 2 /\
  to_list (blk0 (first_spot 1)) = map Some [9;9;9;9;9;9;9; 9;9;9;255;9;9;9; 9;9;255;255;255;9;9; 9;9;9;255;9;9;9; 9;9;9;9;9;9;9] /\
  to_list (blk0 (both_spots 1 2)) = map Some [9;9;0;0;0;9;9; 9;0;0;0;0;0;9; 9;0;0;0;0;0;9; 9;0;0;0;0;0;9; 9;9;0;0;0;9;9].
Proof. split; [exact spots_1_2|]. split; [lia|]. split; [lia|]. split; vm_compute; reflexivity. Qed.

(** A disk of radius 0 also covers the corners of its 3x3 square, which one of radius 1 does not. *)
Lemma hidden_zero : ~ forall w h ch hex hex' r r' cx cy cx' cy' s p b s1 b1 s2 b2 s3 b3,
  draw_ok w h ch r cx cy -> draw_ok w h ch r' cx' cy' -> int_part r <= int_part r' ->
  int_part cx = int_part cx' -> int_part cy = int_part cy' -> holds s p b -> w * h * ch <= blen b ->
  draw_disk w h ch (Some hex) r cx cy p s = Ok (tt, s1) -> holds s1 p b1 ->
  draw_disk w h ch (Some hex') r' cx' cy' p s1 = Ok (tt, s2) -> holds s2 p b2 ->
  draw_disk w h ch (Some hex') r' cx' cy' p s = Ok (tt, s3) -> holds s3 p b3 ->
  blen b2 = blen b3 /\ forall j, bget b2 j = bget b3 j.
Proof.
  intros H. assert (NE : bget (blk0 (both_spots 0 1)) 9 <> bget (blk0 (last_spot 1)) 9) by (vm_compute; congruence).
  pose proof spots_0_1 as M. unfold spots in M. revert M NE.
  generalize (both_spots 0 1) (last_spot 1) (first_spot 0). unfold spot.
  intros s2 s3 s1 (A1 & A2 & A3 & A4 & A5 & A6 & A7 & A8 & A9 & A10 & A11 & A12) NE. apply NE.
  assert (L : int_part (d_of_Z 0) <= int_part (d_of_Z 1)) by lia.
  destruct (H 7 5 1 _ _ _ _ _ _ _ _ _ _ _ _ _ _ _ _ _ A1 A2 L eq_refl eq_refl A5 A6 A7 A8 A9 A10 A11 A12) as [_ E]. apply E.
Qed.
Theorem C131_hidden_refuted : ~ forall w h ch hex hex' r r' cx cy cx' cy' s p b s1 b1 s2 b2 s3 b3,
  draw_ok w h ch r cx cy -> draw_ok w h ch r' cx' cy' -> int_part r <= int_part r' ->
  int_part cx = int_part cx' -> int_part cy = int_part cy' -> holds s p b -> w * h * ch <= blen b ->
  draw_disk w h ch (Some hex) r cx cy p s = Ok (tt, s1) -> holds s1 p b1 ->
  draw_disk w h ch (Some hex') r' cx' cy' p s1 = Ok (tt, s2) -> holds s2 p b2 ->
  draw_disk w h ch (Some hex') r' cx' cy' p s = Ok (tt, s3) -> holds s3 p b3 ->
  blen b2 = blen b3 /\ forall j, bget b2 j = bget b3 j.
Proof. exact hidden_zero. Qed.
Print Assumptions C131_hidden_refuted.
