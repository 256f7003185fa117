(** * P_Swap: a filled disk is symmetric about the diagonals, unless its radius is 0 *)
From Coq Require Import Reals.
From Verif Require Import Base BaseLemmas Spec P_Draw.
Local Open Scope Z_scope.

Lemma by_last r n : by_ r n = r \/ exists m, (m < n)%nat /\ by_ r m = by_ r n + 1 /\ 0 < bd r m.
Proof.
  induction n as [|n IH]; [left; reflexivity|].
  assert (S : (by_ r (S n) = by_ r n - 1 /\ 0 < bd r n) \/ by_ r (S n) = by_ r n).
  { unfold by_, bd. simpl bst. destruct (bst r n) as [[x y] d]. unfold bstep. destruct (Z.ltb_spec 0 d); simpl; auto. }
  destruct S as [[E D]|E].
  - right. exists n. split; [lia|]. split; [lia|auto].
  - destruct IH as [IH|(m & Hm & Em & D)]; [left; congruence|]. right. exists m. split; [lia|]. split; [congruence|auto].
Qed.
Lemma by_keeps r n : by_ r (S n) = by_ r n -> bd r n <= 0.
Proof. unfold by_, bd. simpl bst. destruct (bst r n) as [[x y] d]. unfold bstep. destruct (Z.ltb_spec 0 d); simpl; lia. Qed.
Lemma by_mono r n m : (n <= m)%nat -> by_ r m <= by_ r n.
Proof. induction 1 as [|m _ IH]; [lia|]. destruct (by_step r m); lia. Qed.
Lemma by_between r n m k : (n <= m)%nat -> by_ r m <= k <= by_ r n -> exists i, (n <= i <= m)%nat /\ by_ r i = k.
Proof.
  induction 1 as [|m H IH]; intros Hk; [exists n; split; [lia|lia]|].
  destruct (Z_le_gt_dec (by_ r m) k) as [C|C].
  - destruct IH as (i & Hi & E); [lia|]. exists i. split; [lia|auto].
  - exists (S m). split; [lia|]. destruct (by_step r m); lia.
Qed.

Lemma bd_formula r n : 0 <= r -> running r n -> let x := Z.of_nat n in let y := by_ r n in
  bd r n = 2*x*x + 8*x + 2*y*y - 6*y + 4*r - 2*r*r + 3.
Proof. intros Hr R. destruct (bst_binv r n Hr R) as (E & _). rewrite bx_n in E. exact E. Qed.

(** The rows left of the end of the arc are as long as the arc is wide. *)
Lemma end_of_arc r N a : 1 <= r -> running r N -> by_ r N < bx r N -> Z.of_nat a < by_ r N -> Z.of_nat N <= by_ r a.
Proof.
  intros Hr RN T Ha. rewrite bx_n in T.
  destruct (Z_le_gt_dec (Z.of_nat N) (by_ r a)) as [|C]; auto. exfalso.
  assert (HN : exists k, N = S k) by (destruct N as [|k]; [lia|exists k; reflexivity]). destruct HN as [k ->].
  pose proof (RN k ltac:(lia)) as Hk. rewrite bx_n in Hk.
  pose proof (by_mono r a k ltac:(lia)) as M1.
  assert (Ea : by_ r a = Z.of_nat k) by lia. assert (Ek : by_ r k = Z.of_nat k) by lia.
  assert (Hak : (a < k)%nat) by (pose proof (by_mono r k (S k) ltac:(lia)); lia).
  destruct k as [|j]; [lia|].
  assert (Ej : by_ r j = Z.of_nat (S j)). { pose proof (by_mono r a j ltac:(lia)). pose proof (by_mono r j (S j) ltac:(lia)). lia. }
  assert (Rj : running r j) by (intros i Hi; apply RN; lia). assert (Rk : running r (S j)) by (intros i Hi; apply RN; lia).
  assert (Ra : forall i, (i < a)%nat -> running r i) by (intros i Hi i' Hi'; apply RN; lia).
  pose proof (by_keeps r j ltac:(congruence)) as Dj. rewrite bd_formula in Dj by (auto; lia). rewrite Ej in Dj. rewrite Nat2Z.inj_succ in *.
  set (x := Z.of_nat j) in *.
  destruct (by_step r (S j)) as [E|E].
  - pose proof (by_keeps r (S j) E) as Dk. rewrite bd_formula in Dk by (auto; lia). rewrite Ek, Nat2Z.inj_succ in Dk. fold x in Dk.
    destruct (by_last r a) as [L|(m & Hm & Em & D)].
    + rewrite Ea in L. nia.
    + rewrite bd_formula in D by (auto; lia). rewrite Em, Ea in D. assert (Z.of_nat m <= x - 1) by lia. nia.
  - destruct (by_last r a) as [L|(m & Hm & Em & D)].
    + rewrite Ea in L. nia.
    + rewrite bd_formula in D by (auto; lia). rewrite Em, Ea in D. assert (Z.of_nat m <= x - 2) by lia. nia.
Qed.

Lemma filled_swap r dx dy : 1 <= r -> filled r dx dy -> filled r dy dx.
Proof.
  intros Hr (x & y & O & H). pose proof O as (n & Rn & -> & ->). rewrite bx_n in H.
  assert (Y0 : 0 <= by_ r n).
  { destruct (Z_lt_le_dec (by_ r n) 0) as [C|]; auto. exfalso. destruct (octant_pos r _ _ ltac:(lia) O C) as [E1 E2].
    rewrite bx_n in E1. assert (n = 1%nat) as -> by lia. destruct (by_step r 0) as [E|E]; change (by_ r 0) with r in E; lia. }
  destruct (bst_stops r ltac:(lia)) as (N & _ & RN & TN). pose proof (proj1 (running_le r n N RN TN) Rn) as HnN.
  assert (PT : forall m, (m <= N)%nat -> octant r (Z.of_nat m) (by_ r m)).
  { intros m Hm. exists m. split; [apply (running_le r m N RN TN); auto|]. rewrite bx_n. auto. }
  destruct H as [[H1 H2]|(Nx & H1 & H2)].
  - set (a := Z.to_nat (Z.abs dx)). pose proof (by_mono r a n ltac:(lia)).
    exists (Z.of_nat a), (by_ r a). split; [apply PT; lia|]. unfold dsk1.
    destruct (Z.eq_dec (Z.of_nat a) (by_ r a)); [left|right]; lia.
  - destruct (Z_le_gt_dec (by_ r N) (Z.abs dx)) as [C|C].
    + destruct (by_between r n N (Z.abs dx) HnN ltac:(lia)) as (i & Hi & E).
      exists (Z.of_nat i), (by_ r i). split; [apply PT; lia|]. left. lia.
    + set (a := Z.to_nat (Z.abs dx)). pose proof (end_of_arc r N a Hr RN TN ltac:(lia)) as L. rewrite bx_n in TN.
      exists (Z.of_nat a), (by_ r a). split; [apply PT; lia|]. unfold dsk1.
      destruct (Z.eq_dec (Z.of_nat a) (by_ r a)); [left|right]; lia.
Qed.
