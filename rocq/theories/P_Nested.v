(** * P_Nested: larger disks contain smaller ones, unless these have radius 0 *)
From Coq Require Import Reals.
From Verif Require Import Base BaseLemmas F FLemmas Heap Spec Spec_Draw Spec_Morph M_Color M_Draw P_Color3 P_Draw P_Draw2 P_Rel P_Swap.
Local Open Scope Z_scope.

(** The arc of the larger radius stays above the one of the smaller radius. *)
Lemma arc_above r r' n : 1 <= r -> r <= r' -> running r n -> running r' n /\ by_ r n <= by_ r' n.
Proof.
  intros Hr Hr'. induction n as [|n IH]; intros R; [split; [intros m Hm; lia|exact Hr']|].
  assert (Rn : running r n) by (intros m Hm; apply R; lia). destruct (IH Rn) as [R' L].
  pose proof (R n ltac:(lia)) as C. rewrite bx_n in C.
  assert (RS : running r' (S n)). { intros m Hm. destruct (Nat.eq_dec m n) as [->|]; [rewrite bx_n; lia|apply R'; lia]. }
  split; [exact RS|]. pose proof (by_step r n) as S1. destruct (by_step r' n) as [E|E]; [lia|].
  destruct (Z.eq_dec (by_ r n) (by_ r' n)) as [Q|Q]; [|lia].
  pose proof (bd_formula r n ltac:(lia) Rn) as F1. pose proof (bd_formula r' n ltac:(lia) R') as F2. cbv zeta in F1, F2. rewrite <- Q in F2.
  destruct (Z.eq_dec (by_ r (S n)) (by_ r n)) as [K|K]; [|lia]. apply by_keeps in K.
  assert (D : 0 < bd r' n).
  { clear - E. unfold by_, bd in *. simpl bst in E. destruct (bst r' n) as [[x y] d]. unfold bstep in E. destruct (Z.ltb_spec 0 d); simpl in *; lia. }
  nia.
Qed.

Lemma filled_nested r r' dx dy : 1 <= r -> r <= r' -> filled r dx dy -> filled r' dx dy.
Proof.
  intros Hr Hr' (x & y & O & H). pose proof O as (n & Rn & -> & ->). rewrite bx_n in H.
  assert (Y0 : 0 <= by_ r n).
  { destruct (Z_lt_le_dec (by_ r n) 0) as [C|]; auto. exfalso. destruct (octant_pos r _ _ ltac:(lia) O C) as [E1 E2].
    rewrite bx_n in E1. assert (n = 1%nat) as -> by lia. destruct (by_step r 0) as [E|E]; change (by_ r 0) with r in E; lia. }
  assert (PT : forall m, (m <= n)%nat -> octant r' (Z.of_nat m) (by_ r' m) /\ by_ r m <= by_ r' m).
  { intros m Hm. destruct (arc_above r r' m Hr Hr') as [A B]; [intros i Hi; apply Rn; lia|]. split; auto. exists m. rewrite bx_n. auto. }
  destruct H as [[H1 H2]|(Nx & H1 & H2)].
  - apply filled_swap; [lia|]. set (a := Z.to_nat (Z.abs dx)). pose proof (by_mono r a n ltac:(lia)). destruct (PT a ltac:(lia)) as [P L].
    exists (Z.of_nat a), (by_ r' a). split; [exact P|]. unfold dsk1. destruct (Z.eq_dec (Z.of_nat a) (by_ r' a)); [left|right]; lia.
  - destruct (PT n ltac:(lia)) as [P L]. exists (Z.of_nat n), (by_ r' n). split; [exact P|].
    unfold dsk1. destruct (Z.eq_dec (Z.of_nat n) (by_ r' n)); [left|right]; lia.
Qed.

(** A shape painted over a part of itself *)
Lemma painted_over w h ch col col' (P Q : Z -> Z -> Prop) b b1 b2 b3 : 0 < w -> 0 < h -> 0 < ch -> (forall x y, P x y -> Q x y) ->
  painted w h ch col P b b1 -> painted w h ch col' Q b1 b2 -> painted w h ch col' Q b b3 ->
  blen b2 = blen b3 /\ forall j, bget b2 j = bget b3 j.
Proof.
  intros Hw Hh Hc S (L1 & A1 & B1) (L2 & A2 & B2) (L3 & A3 & B3). split; [congruence|].
  apply (painted_ext w h ch); auto; [|intros j Hj; rewrite B2, B1, B3 by auto; reflexivity].
  intros x y c IN Hk. apply opt_stable. intros K.
  assert (NQ : ~ Q x y). { intros q. apply K. rewrite (proj1 (A2 x y c IN Hk) q). symmetry. apply (proj1 (A3 x y c IN Hk) q). }
  assert (NP : ~ P x y) by auto.
  apply K. rewrite (proj2 (A2 x y c IN Hk) NQ), (proj2 (A1 x y c IN Hk) NP), (proj2 (A3 x y c IN Hk) NQ). reflexivity.
Qed.

Lemma disk_over w h ch hex hex' r r' cx cy cx' cy' s p b s1 b1 s2 b2 s3 b3 :
  draw_ok w h ch r cx cy -> draw_ok w h ch r' cx' cy' -> 1 <= int_part r -> int_part r <= int_part r' ->
  int_part cx = int_part cx' -> int_part cy = int_part cy' -> holds s p b -> w * h * ch <= blen b ->
  draw_disk w h ch (Some hex) r cx cy p s = Ok (tt, s1) -> holds s1 p b1 ->
  draw_disk w h ch (Some hex') r' cx' cy' p s1 = Ok (tt, s2) -> holds s2 p b2 ->
  draw_disk w h ch (Some hex') r' cx' cy' p s = Ok (tt, s3) -> holds s3 p b3 ->
  blen b2 = blen b3 /\ forall j, bget b2 j = bget b3 j.
Proof.
  intros D D' Hr Hrr Ex Ey Hp HL R1 P1 R2 P2 R3 P3.
  destruct (hex_pure hex) as [[cr cg] cb] eqn:EH. destruct (hex_pure hex') as [[cr' cg'] cb'] eqn:EH'.
  assert (Hx : parse_hex_color hex = Ok (cr, cg, cb)) by (rewrite parse_hex_pure, EH; reflexivity).
  assert (Hx' : parse_hex_color hex' = Ok (cr', cg', cb')) by (rewrite parse_hex_pure, EH'; reflexivity).
  pose proof (disk_exact w h ch hex r cx cy s p b cr cg cb D Hp HL Hx) as E1. pose proof E1 as (gv & Eg & _).
  pose proof (draw_run _ w h ch hex r cx cy s p b cr cg cb s1 b1 filled gv Eg E1 R1 P1) as Q1.
  pose proof (painted_len _ _ _ _ _ _ _ Q1) as L1. assert (HL1 : w * h * ch <= blen b1) by lia.
  pose proof (disk_exact w h ch hex' r' cx' cy' s1 p b1 cr' cg' cb' D' P1 HL1 Hx') as E2. pose proof E2 as (gv' & Eg' & _).
  pose proof (draw_run _ w h ch hex' r' cx' cy' s1 p b1 cr' cg' cb' s2 b2 filled gv' Eg' E2 R2 P2) as Q2.
  pose proof (disk_exact w h ch hex' r' cx' cy' s p b cr' cg' cb' D' Hp HL Hx') as E3.
  pose proof (draw_run _ w h ch hex' r' cx' cy' s p b cr' cg' cb' s3 b3 filled gv' Eg' E3 R3 P3) as Q3.
  unfold draw_ok in D. eapply painted_over; [| | | |exact Q1|exact Q2|exact Q3]; try lia.
  intros x y F. rewrite <- Ex, <- Ey. eapply filled_nested; [| |exact F]; lia.
Qed.
