(** * P_Nested2: disks over circles *)
From Coq Require Import Reals.
From Verif Require Import Base BaseLemmas F FLemmas Heap Spec Spec_Draw Spec_Morph M_Color M_Draw P_Color3 P_Draw P_Draw2 P_Rel P_Swap P_Nested.
Local Open Scope Z_scope.

Lemma circle_over w h ch hex hex' r r' cx cy cx' cy' s p b s1 b1 s2 b2 s3 b3 :
  draw_ok w h ch r cx cy -> draw_ok w h ch r' cx' cy' -> 1 <= int_part r -> int_part r <= int_part r' ->
  int_part cx = int_part cx' -> int_part cy = int_part cy' -> holds s p b -> w * h * ch <= blen b ->
  draw_circle w h ch (Some hex) r cx cy p s = Ok (tt, s1) -> holds s1 p b1 ->
  draw_disk w h ch (Some hex') r' cx' cy' p s1 = Ok (tt, s2) -> holds s2 p b2 ->
  draw_disk w h ch (Some hex') r' cx' cy' p s = Ok (tt, s3) -> holds s3 p b3 ->
  blen b2 = blen b3 /\ forall j, bget b2 j = bget b3 j.
Proof.
  intros D D' Hr Hrr Ex Ey Hp HL R1 P1 R2 P2 R3 P3.
  destruct (hex_pure hex) as [[cr cg] cb] eqn:EH. destruct (hex_pure hex') as [[cr' cg'] cb'] eqn:EH'.
  assert (Hx : parse_hex_color hex = Ok (cr, cg, cb)) by (rewrite parse_hex_pure, EH; reflexivity).
  assert (Hx' : parse_hex_color hex' = Ok (cr', cg', cb')) by (rewrite parse_hex_pure, EH'; reflexivity).
  pose proof (circle_exact w h ch hex r cx cy s p b cr cg cb D Hp HL Hx) as E1. pose proof E1 as (gv & Eg & _).
  pose proof (draw_run _ w h ch hex r cx cy s p b cr cg cb s1 b1 ring gv Eg E1 R1 P1) as Q1.
  pose proof (painted_len _ _ _ _ _ _ _ Q1) as L1. assert (HL1 : w * h * ch <= blen b1) by lia.
  pose proof (disk_exact w h ch hex' r' cx' cy' s1 p b1 cr' cg' cb' D' P1 HL1 Hx') as E2. pose proof E2 as (gv' & Eg' & _).
  pose proof (draw_run _ w h ch hex' r' cx' cy' s1 p b1 cr' cg' cb' s2 b2 filled gv' Eg' E2 R2 P2) as Q2.
  pose proof (disk_exact w h ch hex' r' cx' cy' s p b cr' cg' cb' D' Hp HL Hx') as E3.
  pose proof (draw_run _ w h ch hex' r' cx' cy' s p b cr' cg' cb' s3 b3 filled gv' Eg' E3 R3 P3) as Q3.
  unfold draw_ok in D. eapply painted_over; [| | | |exact Q1|exact Q2|exact Q3]; try lia.
  intros x y F. rewrite <- Ex, <- Ey. eapply filled_nested; [| |apply ring_filled; [|exact F]]; lia.
Qed.
