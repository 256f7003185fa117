(** * P_Otsu2: the threshold separates nearly as well as possible *)
From Coq Require Import Reals Lra Psatz.
From Flocq Require Import Core.
From Verif Require Import Base BaseLemmas F FLemmas FLemmas32 FNear Heap Spec Spec_Otsu M_Otsu P_Otsu P_OtsuR.
Local Open Scope Z_scope.

(** ** Integer sums *)
Lemma sum_upto_S f k : sum_upto f (S k) = sum_upto f k + f (Z.of_nat k).
Proof. reflexivity. Qed.
Lemma sum_diff c k k' : (forall v, 0 <= v < 256 -> 0 <= c v) -> (k <= k' <= 256)%nat ->
  0 <= sum_upto c k' - sum_upto c k /\
  0 <= sum_upto (fun v => v * c v) k' - sum_upto (fun v => v * c v) k <= 255 * (sum_upto c k' - sum_upto c k).
Proof.
  intros Hc [H H']. revert H'. induction H as [|m Hm IH]; intros H'; [lia|].
  specialize (IH ltac:(lia)). rewrite !sum_upto_S. specialize (Hc (Z.of_nat m) ltac:(lia)). nia.
Qed.
Lemma sum_zero c k : (forall v, 0 <= v < 256 -> 0 <= c v) -> (k <= 256)%nat -> sum_upto c 256 = sum_upto c k ->
  forall v, Z.of_nat k <= v < 256 -> c v = 0.
Proof.
  intros Hc Hk E v Hv. pose proof (sum_diff c k (Z.to_nat v) Hc ltac:(lia)) as [D1 _].
  pose proof (sum_diff c (S (Z.to_nat v)) 256 Hc ltac:(lia)) as [D2 _].
  rewrite (sum_upto_S c (Z.to_nat v)), Z2Nat.id in D2 by lia. specialize (Hc v ltac:(lia)). lia.
Qed.
Lemma sum_ext f f' k : (forall v, 0 <= v < Z.of_nat k -> f v = f' v) -> sum_upto f k = sum_upto f' k.
Proof. induction k as [|k IH]; auto. intros H. rewrite !sum_upto_S, IH by (intros; apply H; lia). rewrite H by lia. auto. Qed.

(** ** Float sums *)
Fixpoint fsum (f : Z -> f32) (k : nat) : f32 :=
  match k with O => f0 | S k => fadd (fsum f k) (f (Z.of_nat k)) end.

Section Sum.
Context (n : Z) (Hn : 1 <= n) (f : Z -> f32) (h z : Z -> Z).
Hypothesis Hf : forall v, 0 <= v < 256 -> exists p, isf (f v) p /\ near 8 p (IZR (h v) / IZR n) /\ nz p /\
  (z v = 0 -> p = 0%R) /\ 0 <= z v <= 1 /\ (IZR (h v) / IZR n <= 256)%R.

Lemma fsum_near k : (k <= 256)%nat -> exists x, isf (fsum f k) x /\
  near (8 + 101 / 100 * IZR (sum_upto z k)) x (IZR (sum_upto h k) / IZR n) /\ nz x /\
  0 <= sum_upto z k <= Z.of_nat k /\ (IZR (sum_upto h k) / IZR n <= 256 * INR k)%R.
Proof.
  assert (N : (0 < IZR n)%R) by (apply IZR_lt; lia).
  induction k as [|k IH]; intros Hk.
  - exists 0%R. split; [apply isf_0|]. cbn [sum_upto]. unfold Rdiv. rewrite Rmult_0_l. split; [|split; [left; auto|split; [lia|cbn; lra]]].
    unfold near. lra.
  - destruct IH as (x & Ix & Nx & Zx & Sx & Bx); [lia|].
    destruct (Hf (Z.of_nat k) ltac:(lia)) as (p & Ip & Np & Zp & Ep & Ez & Bp).
    cbn [fsum]. rewrite !sum_upto_S.
    assert (K0 : (0 <= IZR (sum_upto z k) <= 256)%R) by (split; apply IZR_le; lia).
    pose proof (near_half _ _ _ Nx ltac:(lra)) as Hx. pose proof (near_half _ _ _ Np ltac:(lra)) as Hp.
    assert (IK : (0 <= INR k <= 256)%R) by (rewrite INR_IZR_INZ; split; apply IZR_le; lia).
    destruct Nx as (X0 & Nx). destruct Np as (P0 & Np).
    assert (A : isf (fadd (fsum f k) (f (Z.of_nat k))) (rf (x + p))).
    { apply fadd_R; auto. apply ok100. pose proof (nz_pos _ Zx). pose proof (nz_pos _ Zp). lra. }
    assert (E : (IZR (sum_upto h k + h (Z.of_nat k)) / IZR n = IZR (sum_upto h k) / IZR n + IZR (h (Z.of_nat k)) / IZR n)%R).
    { rewrite plus_IZR. field. lra. }
    rewrite E. exists (rf (x + p)). split; auto.
    assert (SB : 0 <= sum_upto z k + z (Z.of_nat k) <= Z.of_nat (S k)) by lia.
    assert (BB : (IZR (sum_upto h k) / IZR n + IZR (h (Z.of_nat k)) / IZR n <= 256 * INR (S k))%R) by (rewrite S_INR; lra).
    destruct (Z.eq_dec (z (Z.of_nat k)) 0) as [Z0|Z0].
    + specialize (Ep Z0). subst p. rewrite Rplus_0_r. rewrite (isf_format _ _ Ix).
      assert (HZ : (IZR (h (Z.of_nat k)) / IZR n = 0)%R) by lra.
      rewrite HZ, Rplus_0_r, Z0, Z.add_0_r. rewrite HZ, Rplus_0_r in BB. rewrite Z0, Z.add_0_r in SB.
      split; [split; auto|auto].
    + assert (Z1 : z (Z.of_nat k) = 1) by lia. rewrite Z1 in *.
      assert (NN : near (8 + 101 / 100 * IZR (sum_upto z k)) (x + p) (IZR (sum_upto h k) / IZR n + IZR (h (Z.of_nat k)) / IZR n)).
      { apply near_add; [split; auto|]. apply near_weak with 8%R; [split; auto|lra]. }
      split; [|split; [|split; auto]].
      * apply near_weak with (8 + 101 / 100 * IZR (sum_upto z k) + 101 / 100)%R.
        -- apply near_rf; auto; [now apply nz_add|lra].
        -- rewrite plus_IZR. lra.
      * pose proof (nz_add _ _ Zx Zp) as ZZ. destruct ZZ as [ZZ|ZZ]; [rewrite ZZ, rf_0; left; auto|].
        destruct Zx as [-> | Zx].
        { rewrite Rplus_0_l, (isf_format _ _ Ip). exact Zp. }
        right. apply Rle_trans with x; auto. rewrite <- (isf_format _ _ Ix) at 1. apply rf_mono.
        pose proof (nz_pos _ Zp). lra.
Qed.

(** Adding nothing changes nothing. *)
Lemma fsum_same k k' : (k <= k' <= 256)%nat -> (forall v, Z.of_nat k <= v < Z.of_nat k' -> z v = 0) ->
  B2R (fsum f k') = B2R (fsum f k).
Proof.
  intros [H H']. revert H'. induction H as [|m Hm IH]; intros H' Hz; auto.
  assert (IH' : B2R (fsum f m) = B2R (fsum f k)) by (apply IH; [lia|]; intros v Hv; apply Hz; lia).
  rewrite <- IH'. cbn [fsum].
  destruct (fsum_near m ltac:(lia)) as (x & Ix & _). destruct (Hf (Z.of_nat m) ltac:(lia)) as (p & Ip & _ & _ & Ep & _).
  specialize (Ep (Hz (Z.of_nat m) ltac:(lia))). subst p.
  assert (A : isf (fadd (fsum f m) (f (Z.of_nat m))) (rf (x + 0))).
  { apply fadd_R; auto. rewrite Rplus_0_r. pose proof (isf_small _ _ Ix).
    destruct (fsum_near m ltac:(lia)) as (x' & Ix' & N & Zx & Sx & Bx). destruct Ix as [_ Ex]. destruct Ix' as [_ Ex'].
    rewrite <- Ex, Ex'. apply ok100.
    assert (K0 : (0 <= IZR (sum_upto z m) <= 256)%R) by (split; apply IZR_le; lia).
    pose proof (near_half _ _ _ N ltac:(lra)). pose proof (nz_pos _ Zx).
    assert (IK : (0 <= INR m <= 256)%R) by (rewrite INR_IZR_INZ; split; apply IZR_le; lia). destruct N. lra. }
  destruct A as [_ ->]. rewrite Rplus_0_r, (isf_format _ _ Ix). symmetry. apply Ix.
Qed.
End Sum.

Lemma sum_upto_0 f : sum_upto f 0 = 0. Proof. reflexivity. Qed.
Lemma fsum_S f k : fsum f (S k) = fadd (fsum f k) (f (Z.of_nat k)). Proof. reflexivity. Qed.
Lemma fsum_0 f : fsum f 0 = f0. Proof. reflexivity. Qed.
Local Opaque sum_upto fsum.

(** A float above 1 exceeds it by more than 2^-24. *)
Lemma above_one x a : isf x a -> (1 < a)%R -> (uf <= a - 1)%R.
Proof.
  intros [F <-] H. assert (V : Valid_exp (SpecFloat.fexp 24 128)) by (apply vfexp; exact prec32).
  assert (L : (succ radix2 (SpecFloat.fexp 24 128) (bpow radix2 0) <= B2R x)%R).
  { apply succ_le_lt; auto.
    - apply (format_bpow 24 128); try exact prec32; lia.
    - apply generic_format_B2R. }
  rewrite succ_eq_pos in L by apply bpow_ge_0. rewrite ulp_bpow in L. change (bpow radix2 0) with 1%R in L.
  change (bpow radix2 (SpecFloat.fexp 24 128 (0 + 1))) with (/ 8388608)%R in L. unfold uf. lra.
Qed.
Lemma rf_le x X : (Rabs x <= X)%R -> (1 <= X)%R -> (Rabs (rf x) <= 11 / 10 * X)%R.
Proof.
  intros H1 H2. pose proof (rf_any x) as H. replace (rf x) with ((rf x - x) + x)%R by ring.
  eapply Rle_trans; [apply absadd; [exact H|exact H1]|]. pose proof (Rabs_pos x).
  assert (uf * Rabs x <= 1 / 100 * X)%R by (apply Rmult_le_compat; unfold uf; lra). unfold tiny. lra.
Qed.
Lemma ok30 x X : (Rabs x <= X)%R -> (X <= 1000000000000000000000000000000)%R -> (Rabs x <= bpow radix2 100)%R.
Proof. intros. pose proof big100. lra. Qed.

(** The between-class variance in floats, from shares and means *)
Definition cvar (s m g : R) : R :=
  let z := rf (1 - s) in let d := rf (rf (m / s) - rf (rf (g - m) / z)) in rf (rf (rf (s * z) * d) * d).

Lemma cvar_float cs cm gm s m g : isf cs s -> isf cm m -> isf gm g ->
  (1 / 10000000000 <= s <= 2)%R -> s <> 1%R -> (0 <= m <= 300)%R -> (0 <= g <= 300)%R ->
  isf (fmul (fmul (fmul cs (fsub f1 cs)) (fsub (fdiv cm cs) (fdiv (fsub gm cm) (fsub f1 cs))))
            (fsub (fdiv cm cs) (fdiv (fsub gm cm) (fsub f1 cs)))) (cvar s m g).
Proof.
  intros Is Im Ig Hs H1 Hm Hg. pose proof uf_pos as U.
  assert (I1 : isf f1 1) by (apply (f_of_Z_exact 1); lia).
  assert (D : (uf <= Rabs (1 - s) <= 1)%R).
  { destruct (Rtotal_order s 1) as [L|[L|L]]; [|contradiction|].
    - pose proof (below_one _ _ Is L). rewrite Rabs_pos_eq; lra.
    - pose proof (above_one _ _ Is L). rewrite Rabs_left; lra. }
  set (z := rf (1 - s)).
  assert (Iz : isf (fsub f1 cs) z) by (apply fsub_R; auto; eapply ok30; [apply D|lra]).
  assert (Z1 : (Rabs z <= 11 / 10 * 1)%R) by (apply rf_le; lra).
  assert (Z2 : (uf / 2 <= Rabs z)%R).
  { pose proof (rf_any (1 - s)) as H. fold z in H. pose proof (Rabs_triang_inv (1 - s) (1 - s - z)) as T.
    replace (1 - s - (1 - s - z))%R with z in T by ring. rewrite (Rabs_minus_sym (1 - s) z) in T.
    assert (uf * Rabs (1 - s) <= uf * 1)%R by (apply Rmult_le_compat_l; lra).
    assert (uf * Rabs (1 - s) <= 1 / 100 * Rabs (1 - s))%R by (apply Rmult_le_compat_r; [lra|unfold uf; lra]).
    assert (tiny <= uf / 100)%R by (unfold tiny, uf; lra). lra. }
  assert (Z0 : z <> 0%R) by (intros E; rewrite E, Rabs_R0 in Z2; lra).
  assert (X1 : (Rabs (m / s) <= 3000000000000)%R).
  { rewrite Rabs_pos_eq by (apply Rmult_le_pos; [lra|left; apply Rinv_0_lt_compat; lra]).
    apply Rmult_le_reg_r with s; [lra|]. unfold Rdiv. rewrite Rmult_assoc, Rinv_l by lra. lra. }
  assert (Ix1 : isf (fdiv cm cs) (rf (m / s))) by (apply fdiv_R; auto; [lra|eapply ok30; [exact X1|lra]]).
  assert (Y : (Rabs (g - m) <= 300)%R) by (apply abs_le; lra).
  assert (Iy : isf (fsub gm cm) (rf (g - m))) by (apply fsub_R; auto; eapply ok30; [exact Y|lra]).
  pose proof (rf_le _ _ Y ltac:(lra)) as Y'. set (y := rf (g - m)) in *.
  assert (X2 : (Rabs (y / z) <= 12000000000)%R).
  { unfold Rdiv. rewrite Rabs_mult, Rabs_inv. apply Rmult_le_reg_r with (Rabs z); [lra|].
    rewrite Rmult_assoc, Rinv_l by lra. unfold uf in *. lra. }
  assert (Ix2 : isf (fdiv (fsub gm cm) (fsub f1 cs)) (rf (y / z))) by (apply fdiv_R; auto; eapply ok30; [exact X2|lra]).
  pose proof (rf_le _ _ X1 ltac:(lra)) as X1'. pose proof (rf_le _ _ X2 ltac:(lra)) as X2'.
  set (d0 := (rf (m / s) - rf (y / z))%R).
  assert (D0 : (Rabs d0 <= 4000000000000)%R).
  { unfold d0. apply abs_inv in X1'. apply abs_inv in X2'. apply abs_le. lra. }
  assert (Id : isf (fsub (fdiv cm cs) (fdiv (fsub gm cm) (fsub f1 cs))) (rf d0)) by (apply fsub_R; auto; eapply ok30; [exact D0|lra]).
  pose proof (rf_le _ _ D0 ltac:(lra)) as D'. set (d := rf d0) in *.
  assert (P1 : (Rabs (s * z) <= 2 * (11 / 10 * 1))%R) by (apply absmul; auto; rewrite Rabs_pos_eq; lra).
  assert (IP : isf (fmul cs (fsub f1 cs)) (rf (s * z))) by (apply fmul_R; auto; eapply ok30; [exact P1|lra]).
  pose proof (rf_le _ _ P1 ltac:(lra)) as P1'.
  pose proof (absmul _ _ _ _ P1' D') as T1.
  assert (I2 : isf (fmul (fmul cs (fsub f1 cs)) (fsub (fdiv cm cs) (fdiv (fsub gm cm) (fsub f1 cs)))) (rf (rf (s * z) * d)))
    by (apply fmul_R; auto; eapply ok30; [exact T1|lra]).
  pose proof (rf_le _ _ T1 ltac:(lra)) as T1'. pose proof (absmul _ _ _ _ T1' D') as T2.
  apply fmul_R; auto. eapply ok30; [exact T2|lra].
Qed.

Lemma rf_sign_le x : (x <= 0)%R -> (rf x <= 0)%R.
Proof. intros. rewrite <- rf_0. now apply rf_mono. Qed.
Lemma rf_sign_ge x : (0 <= x)%R -> (0 <= rf x)%R.
Proof. intros. rewrite <- rf_0. now apply rf_mono. Qed.
Lemma mul_np a b : (0 <= a)%R -> (b <= 0)%R -> (a * b <= 0)%R. Proof. intros. nra. Qed.
Lemma mul_pn a b : (a <= 0)%R -> (0 <= b)%R -> (a * b <= 0)%R. Proof. intros. nra. Qed.
Lemma cvar_neg s m g : (0 <= s)%R -> (1 <= s)%R -> (cvar s m g <= 0)%R.
Proof.
  intros H0 H1. unfold cvar. cbv zeta. set (d := rf (rf (m / s) - _)). apply rf_sign_le.
  assert (P : (rf (s * rf (1 - s)) <= 0)%R).
  { apply rf_sign_le. pose proof (rf_sign_le (1 - s) ltac:(lra)). apply mul_np; auto. }
  set (P' := rf (s * rf (1 - s))) in *. destruct (Rle_dec 0 d) as [Hd|Hd].
  - pose proof (rf_sign_le (P' * d) ltac:(apply mul_pn; auto)). apply mul_pn; auto.
  - pose proof (rf_sign_ge (P' * d)) as Q. assert (0 <= P' * d)%R by (rewrite <- Rmult_opp_opp; apply Rmult_le_pos; lra).
    specialize (Q H). apply mul_np; lra.
Qed.
(** When no brighter pixels are left *)
Lemma cvar_full A s g : (12 * uf <= A <= 1 / 60000)%R -> (0 <= 1 - s <= A)%R -> (uf <= 1 - s)%R -> (0 <= g <= 255 * (1 + A))%R ->
  (cvar s g g <= 66000 * A)%R.
Proof.
  intros HA Hs Hu Hg. pose proof uf_pos as U. unfold cvar. cbv zeta. rewrite Rminus_diag_eq with (r1 := g) by auto. rewrite rf_0.
  assert (E0 : rf (0 / rf (1 - s)) = 0%R) by (unfold Rdiv; rewrite Rmult_0_l; apply rf_0). rewrite E0, Rminus_0_r.
  set (d := rf (rf (g / s))). set (z := rf (1 - s)).
  assert (X0 : (0 <= g / s)%R) by (apply Rmult_le_pos; [lra|left; apply Rinv_0_lt_compat; lra]).
  assert (X1 : (g / s <= 25502 / 100)%R).
  { apply Rmult_le_reg_r with s; [lra|]. unfold Rdiv. rewrite Rmult_assoc, Rinv_l by lra. lra. }
  assert (R1 : forall x, (uf <= x -> x * (1 - uf) <= rf x <= x * (1 + uf))%R).
  { intros x Hx. apply rf_rel. right. pose proof small100. unfold uf in *. lra. }
  assert (X2 : (rf (g / s) <= 25503 / 100)%R).
  { pose proof (rf_any (g / s)) as H. rewrite (Rabs_pos_eq (g / s)) in H by auto. apply abs_inv in H.
    assert (uf * (g / s) <= uf * (25502 / 100))%R by (apply Rmult_le_compat_l; lra). unfold tiny, uf in *. lra. }
  assert (D : (0 <= d <= 25504 / 100)%R).
  { unfold d. pose proof (rf_sign_ge _ X0) as Q. split; [now apply rf_sign_ge|].
    pose proof (rf_any (rf (g / s))) as H. rewrite (Rabs_pos_eq (rf (g / s))) in H by auto. apply abs_inv in H.
    assert (uf * rf (g / s) <= uf * (25503 / 100))%R by (apply Rmult_le_compat_l; lra). unfold tiny, uf in *. lra. }
  assert (Z : (0 <= z <= 1001 / 1000 * A)%R).
  { unfold z. pose proof (R1 (1 - s)%R Hu) as H. split; [apply rf_sign_ge; lra|].
    eapply Rle_trans; [apply H|]. apply Rle_trans with (A * (1 + uf))%R; [apply Rmult_le_compat_r; lra|unfold uf in *; lra]. }
  assert (G : forall x X, (0 <= x <= X -> rf x <= 1001 / 1000 * X + tiny)%R).
  { intros x X Hx. pose proof (rf_any x) as H. rewrite (Rabs_pos_eq x) in H by lra. apply abs_inv in H.
    assert (uf * x <= 1 / 1000 * X)%R by (apply Rmult_le_compat; unfold uf; lra). lra. }
  assert (T : (0 < tiny <= 1 / 1000000 * A)%R) by (unfold tiny, uf in *; lra).
  assert (P0 : (0 <= s * z <= 1001 / 1000 * A)%R).
  { split; [apply Rmult_le_pos; lra|]. apply Rle_trans with (1 * z)%R; [apply Rmult_le_compat_r; lra|lra]. }
  pose proof (G _ _ P0) as P1. pose proof (rf_sign_ge _ (proj1 P0)) as P2.
  assert (Q0 : (0 <= rf (s * z) * d <= 1003 / 1000 * A * (25504 / 100))%R).
  { split; [apply Rmult_le_pos; lra|]. apply Rmult_le_compat; lra. }
  pose proof (G _ _ Q0) as Q1. pose proof (rf_sign_ge _ (proj1 Q0)) as Q2.
  assert (S0 : (0 <= rf (rf (s * z) * d) * d <= 1005 / 1000 * A * (25504 / 100) * (25504 / 100))%R).
  { split; [apply Rmult_le_pos; lra|]. apply Rmult_le_compat; lra. }
  pose proof (G _ _ S0) as S1. lra.
Qed.

Lemma sum_dark_255 f : sum_dark f 255 = sum_upto f 256.
Proof. unfold sum_dark. f_equal. Qed.

Lemma separation_form c t n0 n e0 e : sum_dark c t = n0 -> sum_upto c 256 = n -> sum_dark (fun v => v * c v) t = e0 ->
  sum_upto (fun v => v * c v) 256 = e -> 0 < n0 < n ->
  separation c t = (IZR n0 / IZR n * (1 - IZR n0 / IZR n) *
    ((IZR e0 / IZR n / (IZR n0 / IZR n) - (IZR e / IZR n - IZR e0 / IZR n) / (1 - IZR n0 / IZR n)) *
     (IZR e0 / IZR n / (IZR n0 / IZR n) - (IZR e / IZR n - IZR e0 / IZR n) / (1 - IZR n0 / IZR n))))%R.
Proof.
  intros E1 E2 E3 E4 H. unfold separation, sum_bright. rewrite E1, E2, E3, E4. cbv zeta. clear E1 E2 E3 E4.
  replace (n0 =? 0) with false by lia. replace (n - n0 =? 0) with false by lia. cbn [orb].
  replace (n0 + (n - n0)) with n by lia. rewrite !minus_IZR.
  assert (D : (0 < IZR n0 < IZR n)%R) by (split; apply IZR_lt; lia). field. lra.
Qed.

(** Two floats next to 1 *)
Lemma rf_uf : rf uf = uf.
Proof.
  apply gr_format; auto with typeclass_instances. replace uf with (bpow radix2 (-24)) by (unfold uf; cbn; lra).
  apply format_bpow; try exact prec32; lia.
Qed.
Lemma format_1uf : generic_format radix2 (SpecFloat.fexp 24 128) (1 - uf).
Proof.
  assert (V : Valid_exp (SpecFloat.fexp 24 128)) by (apply vfexp; exact prec32).
  replace (1 - uf)%R with (pred radix2 (SpecFloat.fexp 24 128) (bpow radix2 0)).
  - apply generic_format_pred; auto. apply (format_bpow 24 128); try exact prec32; lia.
  - rewrite pred_bpow. change (bpow radix2 0) with 1%R. change (bpow radix2 (SpecFloat.fexp 24 128 0)) with (/ 16777216)%R. unfold uf. lra.
Qed.
Lemma rf_1uf : rf (1 - uf) = (1 - uf)%R.
Proof. apply gr_format; auto with typeclass_instances. apply format_1uf. Qed.
Lemma rf_to_1uf x : (1 - 3 / 2 * uf < x)%R -> (1 - uf <= rf x)%R.
Proof.
  intros H. assert (V : Valid_exp (SpecFloat.fexp 24 128)) by (apply vfexp; exact prec32).
  apply (round_N_ge_midp radix2 (SpecFloat.fexp 24 128)); [exact format_1uf|].
  assert (E : mag radix2 (1 - uf) = 0%Z :> Z).
  { apply mag_unique_pos. change (bpow radix2 (0 - 1)) with (/ 2)%R. change (bpow radix2 0) with 1%R. unfold uf. lra. }
  rewrite pred_eq_pos by (unfold uf; lra). unfold pred_pos. rewrite E. change (bpow radix2 (0 - 1)) with (/ 2)%R.
  rewrite Req_bool_false by (unfold uf; lra). rewrite ulp_neq_0 by (unfold uf; lra). unfold cexp. rewrite E.
  change (bpow radix2 (SpecFloat.fexp 24 128 0)) with (/ 16777216)%R. unfold uf in *. lra.
Qed.
Lemma rf_1 : rf 1 = 1%R.
Proof. apply (rf_IZR 1). lia. Qed.

(** A picture of black and white pixels only, at most 2^24 of them: splitting off
    the black ones separates better than not splitting at all. *)
Lemma bw_real x : (uf <= x <= 1 - uf)%R -> (rf (rf x + rf (1 - x)) < 1)%R ->
  (cvar (rf (rf x + rf (1 - x))) (rf (255 * rf (1 - x))) (rf (255 * rf (1 - x))) <= cvar (rf x) 0 (rf (255 * rf (1 - x))))%R.
Proof.
  intros Hx HS. pose proof uf_pos as U. assert (VU : (uf = 1 / 16777216)%R) by reflexivity.
  assert (S100 : (bpow radix2 (-100) <= uf / 1000000000)%R).
  { apply Rle_trans with (bpow radix2 (-60)); [apply bpow_le; lia|]. unfold uf. change (bpow radix2 (-60)) with (/ 1152921504606846976)%R. lra. }
  assert (RR : forall y, (uf / 1000000000 <= y -> y * (1 - uf) <= rf y <= y * (1 + uf))%R) by (intros y Hy; apply rf_rel; right; lra).
  set (p := rf x) in *. set (q := rf (1 - x)) in *. set (g := rf (255 * q)) in *. set (S := rf (p + q)) in *.
  assert (P1 : (uf <= p)%R) by (rewrite <- rf_uf; apply rf_mono; lra).
  assert (P2 : (x * (1 - uf) <= p)%R) by (apply RR; lra).
  assert (P3 : (p <= 1 - uf)%R) by (rewrite <- rf_1uf; apply rf_mono; lra).
  assert (Q1 : (uf <= q)%R) by (rewrite <- rf_uf; apply rf_mono; lra).
  assert (Q2 : ((1 - x) * (1 - uf) <= q)%R) by (apply RR; lra).
  assert (S1 : (1 - uf <= S)%R). { unfold S. rewrite <- rf_1uf. apply rf_mono. lra. }
  assert (X : (12 / 10 * uf <= x)%R).
  { destruct (Rlt_le_dec x (12 / 10 * uf)) as [L|L]; auto. exfalso.
    assert (1 - uf <= q)%R by (apply rf_to_1uf; lra).
    assert (1 <= S)%R; [|lra]. unfold S. rewrite <- rf_1. apply rf_mono. lra. }
  assert (P4 : (119 / 100 * uf <= p)%R). { assert (12 / 10 * uf * (1 - uf) <= x * (1 - uf))%R by (apply Rmult_le_compat_r; lra). unfold uf in *. lra. }
  assert (Q3 : (q <= 1)%R) by (rewrite <- rf_1; apply rf_mono; lra).
  assert (G1 : (255 * q * (1 - uf) <= g <= 255 * q * (1 + uf))%R) by (apply RR; lra).
  assert (G0 : (uf <= g <= 256)%R).
  { split; [|unfold uf in *; nra]. apply Rle_trans with (255 * uf * (1 - uf))%R; [unfold uf; lra|].
    eapply Rle_trans; [|apply G1]. apply Rmult_le_compat_r; lra. }
  assert (Fg : rf g = g). { unfold g. apply gr_format; auto with typeclass_instances. apply generic_format_round; [apply vfexp; exact prec32|apply valid_rnd_N]. }
  unfold cvar. cbv zeta. rewrite (Rminus_diag_eq g g eq_refl), rf_0, Rminus_0_r, Fg.
  assert (E0 : forall y, rf (0 / y) = 0%R) by (intros y; unfold Rdiv; rewrite Rmult_0_l; apply rf_0). rewrite !E0.
  rewrite Rminus_0_r. 
  (* the whole picture *)
  set (y := rf (1 - S)). set (d := rf (rf (g / S))). set (z := rf (1 - p)).
  assert (Y : (0 <= y <= uf)%R). { unfold y. split; [apply rf_sign_ge; lra|]. rewrite <- rf_uf. apply rf_mono. lra. }
  assert (SY : (0 <= rf (S * y) <= uf)%R).
  { split; [apply rf_sign_ge; apply Rmult_le_pos; lra|]. rewrite <- rf_uf. apply rf_mono. apply Rle_trans with (1 * uf)%R; [apply Rmult_le_compat; lra|lra]. }
  assert (GS : (g <= g / S <= g * (1 + 2 * uf))%R).
  { split; apply Rmult_le_reg_r with S; try lra; unfold Rdiv; rewrite Rmult_assoc, Rinv_l by lra.
    - rewrite Rmult_1_r. rewrite <- (Rmult_1_r g) at 2. apply Rmult_le_compat_l; lra.
    - rewrite Rmult_1_r. rewrite Rmult_assoc. rewrite <- (Rmult_1_r g) at 1. apply Rmult_le_compat_l; [lra|].
      apply Rle_trans with ((1 + 2 * uf) * (1 - uf))%R; [unfold uf; lra|]. apply Rmult_le_compat_l; lra. }
  assert (RI : forall t, rf (rf t) = rf t).
  { intros t. apply gr_format; auto with typeclass_instances. apply generic_format_round; [apply vfexp; exact prec32|apply valid_rnd_N]. }
  assert (D : (0 <= d <= g * (1 + 4 * uf))%R).
  { unfold d. rewrite RI. split; [apply rf_sign_ge; lra|]. eapply Rle_trans; [apply (RR (g / S)%R); lra|].
    apply Rle_trans with (g * (1 + 2 * uf) * (1 + uf))%R; [apply Rmult_le_compat_r; lra|]. rewrite Rmult_assoc. apply Rmult_le_compat_l; [lra|]. unfold uf; lra. }
  set (D1 := (g * (1 + 4 * uf))%R) in *.
  assert (D1p : (uf <= D1 <= 257)%R).
  { unfold D1. split; [|unfold uf in *; lra]. apply Rle_trans with (g * 1)%R; [lra|]. apply Rmult_le_compat_l; unfold uf in *; lra. }
  assert (UU : (uf / 100000000 <= uf * uf)%R) by (unfold uf; lra).
  assert (UD : (uf * uf <= uf * D1)%R) by (apply Rmult_le_compat_l; lra).
  assert (V1 : (0 <= rf (rf (S * y) * d) <= uf * D1 * (1 + uf))%R).
  { split; [apply rf_sign_ge; apply Rmult_le_pos; lra|]. apply Rle_trans with (rf (uf * D1)); [apply rf_mono; apply Rmult_le_compat; lra|].
    apply RR. lra. }
  assert (L1 : (uf * g * (99 / 100) <= uf * D1)%R).
  { unfold D1. rewrite Rmult_assoc. apply Rmult_le_compat_l; [lra|]. apply Rmult_le_compat_l; unfold uf in *; lra. }
  assert (UG : (uf * uf <= uf * g)%R) by (apply Rmult_le_compat_l; lra).
  assert (GG : (uf * uf * (uf) <= uf * g * g)%R).
  { apply Rmult_le_compat; try lra; apply Rmult_le_pos; lra. }
  assert (UUU : (uf / 1000000000000000 <= uf * uf * uf)%R) by (unfold uf; lra).
  assert (HI : (rf (rf (rf (S * y) * d) * d) <= uf * (g * g) * (101 / 100))%R).
  { apply Rle_trans with (rf (uf * (g * g) * (1005 / 1000))).
    - apply rf_mono. apply Rle_trans with (uf * D1 * (1 + uf) * D1)%R; [apply Rmult_le_compat; lra|].
      unfold D1. replace (uf * (g * (1 + 4 * uf)) * (1 + uf) * (g * (1 + 4 * uf)))%R with (uf * (g * g) * ((1 + 4 * uf) * (1 + uf) * (1 + 4 * uf)))%R by ring.
      apply Rmult_le_compat_l; [apply Rmult_le_pos; [lra|apply Rmult_le_pos; lra]|unfold uf; lra].
    - eapply Rle_trans; [apply rf_rel; right|].
      + apply Rle_trans with (bpow radix2 (-75)); [apply bpow_le; lia|]. change (bpow radix2 (-75)) with (/ 37778931862957161709568)%R. unfold uf in *. lra.
      + rewrite Rmult_assoc. apply Rmult_le_compat_l; [apply Rmult_le_pos; [lra|apply Rmult_le_pos; lra]|unfold uf; lra]. }
  (* black against white *)
  assert (Zb : (uf <= z <= 1)%R).
  { unfold z. split; [apply Rle_trans with (rf uf); [rewrite rf_uf; lra|apply rf_mono; lra]|apply Rle_trans with (rf 1); [apply rf_mono; lra|rewrite rf_1; lra]]. }
  assert (GZ : (g <= g * / z)%R).
  { rewrite <- (Rmult_1_r g) at 1. apply Rmult_le_compat_l; [lra|]. rewrite <- Rinv_1 at 1. apply Rinv_le_contravar; lra. }
  assert (PZ : (p * z * (1 - uf) <= rf (p * z))%R).
  { apply RR. apply Rle_trans with (uf * uf)%R; [unfold uf; lra|]. apply Rmult_le_compat; lra. }
  set (e := rf (g / z)).
  assert (Ed : rf (0 - e) = (- e)%R).
  { unfold Rminus. rewrite Rplus_0_l. unfold rf. rewrite round_NE_opp. f_equal. apply RI. }
  rewrite Ed.
  assert (Ee : (g / z * (1 - uf) <= e)%R) by (apply RR; unfold Rdiv; lra).
  set (w := (g * / z)%R) in *. change (g / z)%R with w in *.
  assert (e0 : (g * (99 / 100) <= e)%R) by (eapply Rle_trans; [|exact Ee]; apply Rmult_le_compat; unfold uf in *; lra).
  assert (w0 : (0 < w)%R) by lra.
  assert (V2 : rf (rf (rf (p * z) * - e) * - e) = rf (rf (rf (p * z) * e) * e)).
  { replace (rf (p * z) * - e)%R with (- (rf (p * z) * e))%R by ring.
    replace (rf (- (rf (p * z) * e))) with (- rf (rf (p * z) * e))%R by (unfold rf; rewrite round_NE_opp; reflexivity). f_equal. ring. }
  rewrite V2. set (P := rf (p * z)) in *.
  assert (PZ0 : (p * z * (1 - uf) >= uf * uf * (1 - uf))%R).
  { apply Rle_ge. apply Rmult_le_compat_r; [lra|]. apply Rmult_le_compat; lra. }
  (* P * e >= p z w (1-uf)^2 = p g (1-uf)^2 *)
  assert (ZW : (z * w = g)%R) by (unfold w; field; lra).
  assert (K1 : (p * g * ((1 - uf) * (1 - uf)) <= P * e)%R).
  { replace (p * g * ((1 - uf) * (1 - uf)))%R with ((p * z * (1 - uf)) * (w * (1 - uf)))%R by (rewrite <- ZW; ring).
    apply Rmult_le_compat; try lra; [apply Rmult_le_pos; [apply Rmult_le_pos|]; lra|apply Rmult_le_pos; lra]. }
  assert (PG : (119 / 100 * uf * g <= p * g)%R) by (apply Rmult_le_compat_r; lra).
  assert (UG2 : (uf / 100000000 <= uf * g)%R) by lra.
  assert (K2 : (p * g * (999 / 1000) <= rf (P * e))%R).
  { apply Rle_trans with (rf (p * g * ((1 - uf) * (1 - uf)))); [|apply rf_mono; exact K1].
    assert (PG1 : (p * g * (99 / 100) <= p * g * ((1 - uf) * (1 - uf)))%R) by (apply Rmult_le_compat_l; [lra|unfold uf; lra]).
    eapply Rle_trans; [|apply RR; lra].
    replace (p * g * ((1 - uf) * (1 - uf)) * (1 - uf))%R with (p * g * ((1 - uf) * (1 - uf) * (1 - uf)))%R by ring.
    apply Rmult_le_compat_l; [lra|unfold uf; lra]. }
  assert (K3 : (p * (g * g) * (98 / 100) <= rf (P * e) * e)%R).
  { apply Rle_trans with ((p * g * (999 / 1000)) * (g * (99 / 100)))%R.
    - replace (p * g * (999 / 1000) * (g * (99 / 100)))%R with (p * (g * g) * (999 / 1000 * (99 / 100)))%R by ring.
      apply Rmult_le_compat_l; [apply Rmult_le_pos; [lra|apply Rmult_le_pos; lra]|lra].
    - apply Rmult_le_compat; lra. }
  assert (PGG : (119 / 100 * uf * (g * g) <= p * (g * g))%R) by (apply Rmult_le_compat_r; [apply Rmult_le_pos; lra|lra]).
  assert (LO : (uf * (g * g) * (102 / 100) <= rf (rf (P * e) * e))%R).
  { apply Rle_trans with (rf (uf * (g * g) * (103 / 100))); [|apply rf_mono; lra].
    eapply Rle_trans; [|apply rf_rel; right].
    - rewrite (Rmult_assoc _ _ (1 - uf)). apply Rmult_le_compat_l; [apply Rmult_le_pos; [lra|apply Rmult_le_pos; lra]|unfold uf; lra].
    - apply Rle_trans with (bpow radix2 (-75)); [apply bpow_le; lia|]. change (bpow radix2 (-75)) with (/ 37778931862957161709568)%R. unfold uf in *. lra. }
  assert (0 <= uf * (g * g))%R by (apply Rmult_le_pos; [lra|apply Rmult_le_pos; lra]). lra.
Qed.

(** ** The loops in terms of the float sums *)
Section Counts.
Context (c : Z -> Z) (n : Z).
Hypothesis Hc : forall v, 0 <= v < 256 -> 0 <= c v.
Hypothesis Hn : 1 <= n < 4294967296.
Hypothesis Hs : sum_upto c 256 = n.

Let vc := fun v => v * c v.
Let pf := fun v => fdiv (f_of_Z (c v)) (f_of_Z n).
Let qf := fun v => fmul (f_of_Z v) (pf v).
Let lev := fun v => if c v =? 0 then 0 else 1.

Lemma c_le v : 0 <= v < 256 -> c v <= n.
Proof.
  intros Hv. pose proof (sum_diff c 0 (Z.to_nat v) Hc ltac:(lia)) as [D1 _].
  pose proof (sum_diff c (S (Z.to_nat v)) 256 Hc ltac:(lia)) as [D2 _].
  rewrite (sum_upto_S c (Z.to_nat v)), Z2Nat.id in D2 by lia. rewrite ?sum_upto_0 in D1. lia.
Qed.
Lemma n_R : (1 <= IZR n <= 4294967296)%R.
Proof. split; apply IZR_le; lia. Qed.

Lemma pf_near v : 0 <= v < 256 -> exists p, isf (pf v) p /\ near 6 p (IZR (c v) / IZR n) /\ (c v = 0 -> p = 0%R) /\
  (c v <> 0 -> (1 / 10000000000 <= p)%R) /\ (0 <= p <= 2)%R /\ (IZR (c v) / IZR n <= 1)%R.
Proof.
  intros Hv. pose proof (c_le v Hv) as CL. specialize (Hc v Hv). pose proof n_R as NR.
  assert (C0 : (0 <= IZR (c v) <= IZR n)%R) by (split; apply IZR_le; lia).
  assert (I1 : isf (f_of_Z (c v)) (rf (IZR (c v)))) by (apply f_of_Z_R; lia).
  assert (I2 : isf (f_of_Z n) (rf (IZR n))) by (apply f_of_Z_R; lia).
  assert (Z1 : nz (IZR (c v))).
  { destruct (Z.eq_dec (c v) 0) as [->|]; [left; auto|]. right. apply Rle_trans with 1%R; [lra|]. apply IZR_le. lia. }
  assert (N1 : near (101 / 100) (rf (IZR (c v))) (IZR (c v))).
  { apply near_weak with (0 + 101 / 100)%R; [|lra]. apply near_rf; auto; [apply near_refl|]; lra. }
  assert (N2 : near (101 / 100) (rf (IZR n)) (IZR n)).
  { apply near_weak with (0 + 101 / 100)%R; [|lra]. apply near_rf; auto; [apply near_refl; lra|right; lra|lra]. }
  pose proof (near_half _ _ _ N1 ltac:(lra)) as H1. pose proof (near_half _ _ _ N2 ltac:(lra)) as H2.
  set (x := (rf (IZR (c v)) / rf (IZR n))%R).
  assert (X0 : (0 <= x <= 13 / 10)%R).
  { unfold x. split; [apply Rmult_le_pos; [lra|left; apply Rinv_0_lt_compat; lra]|].
    apply Rmult_le_reg_r with (rf (IZR n)); [lra|]. unfold Rdiv. rewrite Rmult_assoc, Rinv_l by lra. lra. }
  assert (X1 : c v <> 0 -> (1 / 5300000000 <= x)%R).
  { intros Hne. assert (1 <= IZR (c v))%R by (apply IZR_le; lia). unfold x.
    apply Rmult_le_reg_r with (rf (IZR n)); [lra|]. unfold Rdiv at 2. rewrite Rmult_assoc, Rinv_l by lra. lra. }
  assert (X2 : c v = 0 -> x = 0%R).
  { intros E. unfold x. rewrite E, rf_0. unfold Rdiv. lra. }
  assert (Zx : nz x).
  { destruct (Z.eq_dec (c v) 0) as [E|E]; [left; auto|right]. specialize (X1 E). lra. }
  assert (Nx : near (101 / 100 + 101 / 100 + 2) x (IZR (c v) / IZR n)) by (apply near_div; auto; lra).
  assert (N : near (101 / 100 + 101 / 100 + 2 + 101 / 100) (rf x) (IZR (c v) / IZR n)) by (apply near_rf; auto; lra).
  assert (Y : (IZR (c v) / IZR n <= 1)%R).
  { apply Rmult_le_reg_r with (IZR n); [lra|]. unfold Rdiv. rewrite Rmult_assoc, Rinv_l by lra. lra. }
  pose proof (near_half _ _ _ N ltac:(lra)) as HN. pose proof (near_half _ _ _ Nx ltac:(lra)) as HN'.
  exists (rf x). split; [apply fdiv_R; auto; [lra|change (Rabs x <= bpow radix2 100)%R; apply ok100; split; lra]|].
  split; [apply near_weak with (101 / 100 + 101 / 100 + 2 + 101 / 100)%R; auto; lra|].
  split; [intros E; rewrite (X2 E); apply rf_0|].
  split; [intros E; specialize (X1 E); lra|]. split; [|exact Y]. destruct N as [N0 _]. lra.
Qed.
Lemma lev_range v : 0 <= lev v <= 1. Proof. unfold lev. destruct (c v =? 0); lia. Qed.
Lemma lev_0 v : lev v = 0 <-> c v = 0. Proof. unfold lev. destruct (Z.eqb_spec (c v) 0); lia. Qed.

Lemma pf_ok v : 0 <= v < 256 -> exists p, isf (pf v) p /\ near 8 p (IZR (c v) / IZR n) /\ nz p /\
  (lev v = 0 -> p = 0%R) /\ 0 <= lev v <= 1 /\ (IZR (c v) / IZR n <= 256)%R.
Proof.
  intros Hv. destruct (pf_near v Hv) as (p & I & N & E & E' & R & B). exists p. split; auto.
  split; [apply near_weak with 6%R; auto; lra|]. split; [destruct (Z.eq_dec (c v) 0) as [Q|Q]; [left; auto|right; specialize (E' Q); lra]|].
  split; [now rewrite lev_0|]. split; [apply lev_range|lra].
Qed.
Lemma qf_ok v : 0 <= v < 256 -> exists p, isf (qf v) p /\ near 8 p (IZR (vc v) / IZR n) /\ nz p /\
  (lev v = 0 -> p = 0%R) /\ 0 <= lev v <= 1 /\ (IZR (vc v) / IZR n <= 256)%R.
Proof.
  intros Hv. destruct (pf_near v Hv) as (p & I & N & E & E' & R & B). pose proof n_R as NR.
  assert (I1 : isf (f_of_Z v) (IZR v)) by (apply f_of_Z_exact; lia).
  assert (V : (0 <= IZR v <= 255)%R) by (split; apply IZR_le; lia).
  assert (Eq : (IZR (vc v) / IZR n = IZR v * (IZR (c v) / IZR n))%R) by (unfold vc; rewrite mult_IZR; field; lra).
  rewrite Eq. assert (B0 : (0 <= IZR (c v) / IZR n)%R) by apply N.
  assert (NN : near 6 (IZR v * p) (IZR v * (IZR (c v) / IZR n))) by (apply near_scale; auto; lra).
  assert (VP : (0 <= IZR v * p <= 255 * 2)%R).
  { split; [apply Rmult_le_pos; lra|apply Rmult_le_compat; lra]. }
  assert (Z : nz (IZR v * p)).
  { destruct (Z.eq_dec (c v) 0) as [Q|Q]; [rewrite (E Q), Rmult_0_r; left; auto|].
    destruct (Z.eq_dec v 0) as [->|]; [rewrite Rmult_0_l; left; auto|]. right. specialize (E' Q).
    assert (1 <= IZR v)%R by (apply IZR_le; lia). apply Rle_trans with (1 * (1 / 10000000000))%R; [lra|].
    apply Rmult_le_compat; lra. }
  assert (NF : near (6 + 101 / 100) (rf (IZR v * p)) (IZR v * (IZR (c v) / IZR n))) by (apply near_rf; auto; lra).
  exists (rf (IZR v * p)). split; [unfold qf; apply fmul_R; auto; apply ok100; lra|].
  split; [apply near_weak with (6 + 101 / 100)%R; auto; lra|].
  split.
  { destruct Z as [-> | Z]; [rewrite rf_0; left; auto|]. 
    destruct (Z.eq_dec (c v) 0) as [Q|Q]; [exfalso; rewrite (E Q), Rmult_0_r in Z; lra|].
    destruct (Z.eq_dec v 0) as [Hv0|]; [exfalso; rewrite Hv0, Rmult_0_l in Z; lra|]. specialize (E' Q).
    assert (1 <= IZR v)%R by (apply IZR_le; lia). right. apply Rle_trans with p; [lra|].
    rewrite <- (isf_format _ _ I) at 1. apply rf_mono. rewrite <- (Rmult_1_l p) at 1. apply Rmult_le_compat_r; lra. }
  split; [intros L; rewrite E, Rmult_0_r by (now apply lev_0); apply rf_0|]. split; [apply lev_range|].
  apply Rle_trans with (255 * 1)%R; [apply Rmult_le_compat; lra|lra].
Qed.

(** Share and mean of the levels up to [t], exact and computed *)
Let idx t := Z.to_nat (t + 1).
Let W t := (IZR (sum_dark c t) / IZR n)%R.
Let M t := (IZR (sum_dark vc t) / IZR n)%R.
Let s t := B2R (fsum pf (idx t)).
Let m t := B2R (fsum qf (idx t)).
Let K := (8 + 101 / 100 * IZR (sum_upto lev 256))%R.

Lemma lev_sum k : (k <= 256)%nat -> 0 <= sum_upto lev k <= sum_upto lev 256 /\ sum_upto lev 256 <= 256.
Proof.
  intros Hk. assert (L : forall v, 0 <= v < 256 -> 0 <= lev v) by (intros; apply lev_range).
  pose proof (sum_diff lev k 256 L ltac:(lia)) as [D _]. pose proof (sum_diff lev 0 k L ltac:(lia)) as [D' _].
  assert (F : forall j, (j <= 256)%nat -> sum_upto lev j <= Z.of_nat j).
  { induction j as [|j IH]; intros; [rewrite sum_upto_0; lia|]. rewrite sum_upto_S. pose proof (lev_range (Z.of_nat j)). lia. }
  specialize (F 256%nat ltac:(lia)). rewrite ?sum_upto_0 in D'. lia.
Qed.
Lemma K_range : (8 <= K <= 267)%R.
Proof. unfold K. destruct (lev_sum 256 ltac:(lia)) as [D1 D2]. assert (0 <= IZR (sum_upto lev 256) <= 256)%R by (split; apply IZR_le; lia). lra. Qed.

Lemma s_near t : 0 <= t < 256 -> isf (fsum pf (idx t)) (s t) /\ near K (s t) (W t).
Proof.
  intros Ht. destruct (fsum_near n ltac:(lia) pf c lev pf_ok (idx t) ltac:(unfold idx; lia)) as (x & I & N & _ & _ & _).
  assert (E : s t = x) by apply I. rewrite E. split; auto. eapply near_weak; [exact N|].
  destruct (lev_sum (idx t) ltac:(unfold idx; lia)) as [D1 D2]. unfold K.
  assert (IZR (sum_upto lev (idx t)) <= IZR (sum_upto lev 256))%R by (apply IZR_le; lia). lra.
Qed.
Lemma m_near t : 0 <= t < 256 -> isf (fsum qf (idx t)) (m t) /\ near K (m t) (M t).
Proof.
  intros Ht. destruct (fsum_near n ltac:(lia) qf vc lev qf_ok (idx t) ltac:(unfold idx; lia)) as (x & I & N & _ & _ & _).
  assert (E : m t = x) by apply I. rewrite E. split; auto. eapply near_weak; [exact N|].
  destruct (lev_sum (idx t) ltac:(unfold idx; lia)) as [D1 D2]. unfold K.
  assert (IZR (sum_upto lev (idx t)) <= IZR (sum_upto lev 256))%R by (apply IZR_le; lia). lra.
Qed.
Lemma s_pos t : 0 <= t < 256 -> (0 <= s t <= 2)%R /\ (0 < sum_dark c t -> (1 / 10000000000 <= s t)%R) /\ (sum_dark c t = 0 -> s t = 0%R).
Proof.
  intros Ht. destruct (s_near t Ht) as [_ N]. pose proof K_range. pose proof (near_half _ _ _ N ltac:(lra)) as H1.
  pose proof n_R. assert (D : 0 <= sum_dark c t <= n).
  { unfold sum_dark. rewrite <- Hs. pose proof (sum_diff c 0 (idx t) Hc ltac:(unfold idx; lia)) as [D1 _].
    pose proof (sum_diff c (idx t) 256 Hc ltac:(unfold idx; lia)) as [D2 _]. rewrite ?sum_upto_0 in D1. fold (idx t). lia. }
  assert (DR : (0 <= IZR (sum_dark c t) <= IZR n)%R) by (split; apply IZR_le; lia).
  assert (W1 : (W t <= 1)%R).
  { unfold W. apply Rmult_le_reg_r with (IZR n); [lra|]. unfold Rdiv. rewrite Rmult_assoc, Rinv_l by lra. lra. }
  destruct N as [W0 _]. split; [lra|]. split.
  - intros P. assert (1 <= IZR (sum_dark c t))%R by (apply IZR_le; lia).
    assert (1 / 4294967296 <= W t)%R; [|lra]. unfold W. apply Rmult_le_reg_r with (IZR n); [lra|].
    unfold Rdiv at 2. rewrite Rmult_assoc, Rinv_l by lra. lra.
  - intros Z. assert (W t = 0)%R; [|lra]. unfold W. rewrite Z. unfold Rdiv. lra.
Qed.

Let g := m 255.
Definition cvar_at t := cvar (s t) (m t) g.

Lemma M_bounds t : 0 <= t < 256 -> (0 <= M t <= 255 * W t)%R /\ (0 <= M 255 - M t <= 255 * (1 - W t))%R /\ (0 <= W t <= 1)%R /\
  (M 255 <= 255)%R /\ W 255 = 1%R.
Proof.
  intros Ht. pose proof n_R as NR.
  pose proof (sum_diff c 0 (idx t) Hc ltac:(unfold idx; lia)) as [D1 D2].
  pose proof (sum_diff c (idx t) 256 Hc ltac:(unfold idx; lia)) as [D3 D4]. rewrite !sum_upto_0 in D1, D2. rewrite ?(sum_upto_0 c) in D2.
  fold vc in D2, D4. unfold M, W. rewrite !sum_dark_255. unfold sum_dark. fold (idx t).
  rewrite Hs in *. set (a := sum_upto c (idx t)) in *. set (b := sum_upto vc (idx t)) in *. set (e := sum_upto vc 256) in *.
  assert (Hdiv : forall x y, x <= y -> (IZR x / IZR n <= IZR y / IZR n)%R).
  { intros. apply Rmult_le_compat_r; [left; apply Rinv_0_lt_compat; lra|now apply IZR_le]. }
  assert (E0 : (IZR 0 / IZR n = 0)%R) by (unfold Rdiv; lra). assert (En : (IZR n / IZR n = 1)%R) by (field; lra).
  assert (Em : forall x, (IZR (255 * x) / IZR n = 255 * (IZR x / IZR n))%R) by (intros; rewrite mult_IZR; field; lra).
  assert (Es : forall x y, (IZR (x - y) / IZR n = IZR x / IZR n - IZR y / IZR n)%R) by (intros; rewrite minus_IZR; field; lra).
  pose proof (Hdiv 0 b ltac:(lia)) as Q1. pose proof (Hdiv b (255 * a) ltac:(lia)) as Q2.
  pose proof (Hdiv 0 (e - b) ltac:(lia)) as Q3. pose proof (Hdiv (e - b) (255 * (n - a)) ltac:(lia)) as Q4.
  pose proof (Hdiv 0 a ltac:(lia)) as Q5. pose proof (Hdiv a n ltac:(lia)) as Q6.
  rewrite Em, ?Es in *. rewrite E0, En in *. lra.
Qed.

Lemma separation_eq t : 0 < sum_dark c t < n ->
  separation c t = (W t * (1 - W t) * ((M t / W t - (M 255 - M t) / (1 - W t)) * (M t / W t - (M 255 - M t) / (1 - W t))))%R.
Proof.
  intros Hd. exact (separation_form c t _ n _ _ eq_refl Hs eq_refl (eq_sym (sum_dark_255 vc)) Hd).
Qed.

Lemma separation_pos t : (0 <= separation c t)%R \/ sum_dark c t < 0 \/ sum_bright c t < 0.
Proof.
  unfold separation. cbv zeta. destruct (_ || _) eqn:E; [left; lra|]. apply orb_false_iff in E. rewrite !Z.eqb_neq in E.
  destruct (Z.ltb_spec (sum_dark c t) 0) as [|H1]; [auto|]. destruct (Z.ltb_spec (sum_bright c t) 0) as [|H2]; [auto|].
  left. apply Rmult_le_pos; [apply Rmult_le_pos|apply Rle_0_sqr].
  - apply Rmult_le_pos; [apply IZR_le; lia|left; apply Rinv_0_lt_compat; apply IZR_lt; lia].
  - apply Rmult_le_pos; [apply IZR_le; lia|left; apply Rinv_0_lt_compat; apply IZR_lt; lia].
Qed.
Lemma dark_range t : 0 <= t < 256 -> 0 <= sum_dark c t <= n.
Proof.
  intros. pose proof (sum_diff c 0 (idx t) Hc ltac:(unfold idx; lia)) as [D1 _].
  pose proof (sum_diff c (idx t) 256 Hc ltac:(unfold idx; lia)) as [D2 _]. unfold sum_dark. fold (idx t). rewrite ?sum_upto_0 in D1. lia.
Qed.
Lemma separation_ge0 t : 0 <= t < 256 -> (0 <= separation c t)%R.
Proof.
  intros Ht. pose proof (dark_range t Ht). destruct (separation_pos t) as [|[|Q]]; auto; [lia|].
  unfold sum_bright in Q. rewrite Hs in Q. lia.
Qed.

(** ** Rounding errors, [k] units *)
Section Err.
Context (k : R) (Hk : (12 <= k <= 267)%R) (HK : (K <= k)%R).
Let A := (k * uf)%R.

Lemma A_range : (12 * uf <= A <= 1 / 60000)%R.
Proof. unfold A, uf. lra. Qed.
Lemma near_A x y : near K x y -> (Rabs (x - y) <= A * y)%R.
Proof.
  intros N. apply near_weak with (k := k) in N; auto. destruct N as (N0 & N1). apply abs_le. unfold A. lra.
Qed.

Lemma sep_near t : 0 <= t < 256 -> 0 < sum_dark c t < n -> (s t < 1)%R ->
  (Rabs (cvar_at t - separation c t) <= 600000 * A + 600000 * (A * (A / (1 - s t))))%R.
Proof.
  intros Ht Hd S1. rewrite (separation_eq t Hd). destruct (s_near t Ht) as [Is Ns].
  destruct (m_near t Ht) as [Im Nm]. destruct (m_near 255 ltac:(lia)) as [Ig Ng]. destruct (M_bounds t Ht) as (B1 & B2 & B3 & B4 & B5).
  assert (HW : (0 < W t < 1)%R).
  { pose proof n_R. assert (0 < IZR (sum_dark c t) < IZR n)%R by (split; apply IZR_lt; lia).
    unfold W. split; apply Rmult_lt_reg_r with (IZR n); try lra; unfold Rdiv; rewrite Rmult_assoc, Rinv_l by lra; lra. }
  apply (v_near A (W t) (M t) (M 255) (s t) (m t) g); auto.
  - apply A_range.
  - now apply near_A.
  - now apply near_A.
  - now apply near_A.
  - now apply below_one with (fsum pf (idx t)).
Qed.

(** No brighter pixels: next to no variance *)
Lemma full_near t : 0 <= t < 256 -> sum_dark c t = n -> (s t < 1)%R -> (cvar_at t <= 66000 * A)%R.
Proof.
  intros Ht Hd S1. unfold cvar_at. destruct (s_near t Ht) as [Is Ns]. pose proof n_R as NR.
  assert (W1 : W t = 1%R) by (unfold W; rewrite Hd; field; lra).
  pose proof (near_A _ _ Ns) as Q. rewrite W1 in Q. apply abs_inv in Q.
  assert (Eg : m t = g).
  { symmetry. unfold g, m. apply (fsum_same n ltac:(lia) qf vc lev qf_ok); [unfold idx; lia|].
    intros v Hv. apply lev_0. apply (sum_zero c (idx t) Hc); [unfold idx; lia| |unfold idx in *; lia].
    rewrite Hs. unfold sum_dark in Hd. fold (idx t) in Hd. auto. }
  rewrite Eg. apply cvar_full; [apply A_range|lra|now apply below_one with (fsum pf (idx t))|].
  destruct (m_near 255 ltac:(lia)) as [Ig Ng]. destruct (M_bounds 255 ltac:(lia)) as (B1 & B2 & B3 & B4 & B5).
  pose proof (near_pos _ _ _ Ng ltac:(pose proof K_range; lra)) as G0. pose proof (near_A _ _ Ng) as G1. apply abs_inv in G1.
  fold g in G0, G1. split; auto. pose proof A_range. unfold uf in *.
  assert (A * M 255 <= A * 255)%R by (apply Rmult_le_compat_l; lra). lra.
Qed.
End Err.

(** ** The loop *)
Lemma norm_loop_pf : exists hn, norm_loop (hbuf c) n = Ok hn /\ forall i, 0 <= i < 256 -> load hn i = Ok (pf i).
Proof.
  unfold norm_loop.
  destruct (for_inv (fun i (hn : buf f32) => blen hn = 256 /\ forall j, 0 <= j < i -> bget hn j = Some (pf j)) 0 256
    (fun i hn => c0 <- load (hbuf c) i ;; store hn i (fdiv (f_of_Z c0) (f_of_Z n))) (bconst 256 f0)) as [hn [E [L G]]].
  - lia.
  - split; [reflexivity|]. intros; lia.
  - intros i hn Hi [L G]. rewrite load_hbuf by auto. rewrite bind_Ok. rewrite store_ok by lia.
    eexists; split; [reflexivity|]. split; [exact L|]. intros j Hj. rewrite bget_bset.
    destruct (Z.eqb_spec j i) as [->|]; auto. apply G. lia.
  - exists hn; split; auto. intros i Hi. apply load_ok; [lia|]. apply G. lia.
Qed.
Lemma mean_loop_qf hn : (forall i, 0 <= i < 256 -> load hn i = Ok (pf i)) -> mean_loop hn = Ok (fsum qf 256).
Proof.
  intros G. unfold mean_loop.
  destruct (for_inv (fun i (x : f32) => x = fsum qf (Z.to_nat i)) 0 256
    (fun i gm => v <- load hn i ;; Ok (fadd gm (fmul (f_of_Z i) v))) f0) as [x [E ->]]; auto; [lia|].
  intros i x Hi ->. rewrite G by auto. rewrite bind_Ok. eexists; split; [reflexivity|].
  replace (Z.to_nat (i + 1)) with (S (Z.to_nat i)) by lia. rewrite fsum_S, Z2Nat.id by lia. reflexivity.
Qed.

Definition considered t := 0 <= t < 256 /\ s t <> 0%R /\ s t <> 1%R.
Lemma s_one t : 0 <= t < 256 -> sum_dark c t = 0 -> s t = 0%R.
Proof. intros Ht. apply (s_pos t Ht). Qed.

Lemma otsu_loop_first : exists T X, otsu_threshold (hbuf c) n = Ok T /\ 0 <= T < 256 /\ (0 <= X)%R /\
  ((X = 0%R /\ T = 0) \/ (considered T /\ X = cvar_at T /\ (0 < X)%R)) /\ (forall t, considered t -> (cvar_at t <= X)%R) /\
  (forall t, t < T -> considered t -> (cvar_at t < X)%R).
Proof.
  destruct norm_loop_pf as (hn & En & G). unfold otsu_threshold. rewrite En, bind_Ok, (mean_loop_qf hn G), bind_Ok.
  destruct (for_inv (fun i o => cum_sum o = fsum pf (Z.to_nat i) /\ cum_mean o = fsum qf (Z.to_nat i) /\ 0 <= opt o < 256 /\
      exists X, isf (max_var o) X /\ (0 <= X)%R /\ ((X = 0%R /\ opt o = 0) \/ (considered (opt o) /\ X = cvar_at (opt o) /\ (0 < X)%R)) /\
        (forall t, t < i -> considered t -> (cvar_at t <= X)%R) /\ (forall t, t < opt o -> considered t -> (cvar_at t < X)%R))
    0 256 (otsu_step hn (fsum qf 256)) (mkotsu f0 f0 f0 0)) as [o [E (_ & _ & Ho & X & IX & X0 & HX & HM & HF)]].
  - lia.
  - cbn [cum_sum cum_mean max_var opt]. do 2 (split; [reflexivity|]). split; [lia|]. exists 0%R. split; [apply isf_0|]. split; [lra|]. split; [auto|].
    split; intros t Ht [Ht' _]; lia.
  - intros i o Hi (C1 & C2 & Ho & X & IX & X0 & HX & HM & HF). unfold otsu_step. rewrite G by auto. rewrite bind_Ok. cbv zeta.
    assert (E1 : fadd (cum_sum o) (pf i) = fsum pf (idx i)).
    { rewrite C1. unfold idx. replace (Z.to_nat (i + 1)) with (S (Z.to_nat i)) by lia. rewrite fsum_S, Z2Nat.id by lia. reflexivity. }
    assert (E2 : fadd (cum_mean o) (fmul (f_of_Z i) (pf i)) = fsum qf (idx i)).
    { rewrite C2. unfold idx. replace (Z.to_nat (i + 1)) with (S (Z.to_nat i)) by lia. rewrite fsum_S, Z2Nat.id by lia. reflexivity. }
    rewrite E1, E2. destruct (s_near i Hi) as [Is Ns]. destruct (m_near i Hi) as [Im Nm]. destruct (m_near 255 ltac:(lia)) as [Ig Ng].
    rewrite (feq_R _ f0 _ _ Is isf_0), (feq_R _ f1 _ _ Is (f_of_Z_exact 1 ltac:(lia))).
    destruct (Req_bool_spec (s i) 0) as [S0|S0]; [|destruct (Req_bool_spec (s i) 1) as [S1|S1]].
    1, 2: cbn [orb]; eexists; split; [reflexivity|]; cbn [cum_sum cum_mean max_var opt]; split; [reflexivity|split; [reflexivity|split; [exact Ho|]]];
      exists X; split; [auto|split; [auto|split; [auto|split; [|auto]]]]; intros t Ht Hct;
      (destruct (Z.eq_dec t i) as [->|]; [destruct Hct as (_ & Q0 & Q1); contradiction|apply HM; auto; lia]).
    cbn [orb].
    assert (IV : isf (fmul (fmul (fmul (fsum pf (idx i)) (fsub f1 (fsum pf (idx i))))
        (fsub (fdiv (fsum qf (idx i)) (fsum pf (idx i))) (fdiv (fsub (fsum qf 256) (fsum qf (idx i))) (fsub f1 (fsum pf (idx i))))))
        (fsub (fdiv (fsum qf (idx i)) (fsum pf (idx i))) (fdiv (fsub (fsum qf 256) (fsum qf (idx i))) (fsub f1 (fsum pf (idx i))))))
      (cvar_at i)).
    { destruct (s_pos i Hi) as (P1 & P2 & P3). pose proof K_range as KR. pose proof (near_half _ _ _ Nm ltac:(lra)) as N1.
      pose proof (near_half _ _ _ Ng ltac:(lra)) as N2. destruct (M_bounds i Hi) as (B1 & B2 & B3 & B4 & B5).
      apply cvar_float; auto.
      - split; [|lra]. apply P2. pose proof (dark_range i Hi). assert (sum_dark c i <> 0) by (intros Q; apply S0; auto). lia.
      - lra.
      - fold g in N2. lra. }
    set (V := fmul (fmul (fmul (fsum pf (idx i)) (fsub f1 (fsum pf (idx i)))) _) _) in *.
    assert (Ci : considered i) by (split; auto).
    rewrite (flt_R _ _ _ _ IX IV). destruct (Rlt_bool_spec X (cvar_at i)) as [L|L].
    + eexists; split; [reflexivity|]. cbn [cum_sum cum_mean max_var opt]. split; [reflexivity|split; [reflexivity|split; [exact Hi|]]].
      exists (cvar_at i). split; [auto|split; [lra|split; [right; split; [auto|split; [auto|lra]]|split]]]; intros t Ht Hct.
      * destruct (Z.eq_dec t i) as [->|]; [lra|]. specialize (HM t ltac:(lia) Hct). lra.
      * specialize (HM t ltac:(lia) Hct). lra.
    + eexists; split; [reflexivity|]. cbn [cum_sum cum_mean max_var opt]. split; [reflexivity|split; [reflexivity|split; [exact Ho|]]].
      exists X. split; [auto|split; [lra|split; [auto|split; [|auto]]]]. intros t Ht Hct.
      destruct (Z.eq_dec t i) as [->|]; [lra|]. apply HM; auto. lia.
  - rewrite E, bind_Ok. exists (opt o), X. split; auto. split; auto. split; auto. split; auto.
    split; auto. intros t Hct. apply HM; auto. destruct Hct. lia.
Qed.

Lemma otsu_loop : exists T X, otsu_threshold (hbuf c) n = Ok T /\ 0 <= T < 256 /\ (0 <= X)%R /\
  (X = 0%R \/ (considered T /\ X = cvar_at T)) /\ (forall t, considered t -> (cvar_at t <= X)%R).
Proof. destruct otsu_loop_first as (T & X & A & B & C & [[D _]|(D & E & _)] & F & _); exists T, X; auto 10. Qed.

(** ** The choice *)
Lemma W_in t : 0 <= t < 256 -> 0 < sum_dark c t < n -> (0 < W t < 1)%R /\ (1 / IZR n <= 1 - W t)%R.
Proof.
  intros Ht Hd. pose proof n_R. assert (D : (0 < IZR (sum_dark c t) <= IZR n - 1)%R).
  { split; [apply IZR_lt; lia|]. rewrite <- minus_IZR. apply IZR_le. lia. }
  unfold W. split; [split; apply Rmult_lt_reg_r with (IZR n); try lra; unfold Rdiv; rewrite Rmult_assoc, Rinv_l by lra; lra|].
  apply Rmult_le_reg_r with (IZR n); [lra|]. unfold Rdiv. rewrite Rmult_minus_distr_r, !Rmult_assoc, Rinv_l by lra. lra.
Qed.
Lemma sep_le t : 0 <= t < 256 -> 0 < sum_dark c t < n -> (separation c t <= 65025 * (1 - W t))%R.
Proof.
  intros Ht Hd. rewrite (separation_eq t Hd). destruct (M_bounds t Ht) as (B1 & B2 & B3 & B4 & B5).
  destruct (W_in t Ht Hd) as [HW _]. clear -B1 B2 HW. set (w := W t) in *. set (a := M t) in *. set (b := (M 255 - a)%R) in *.
  clearbody w a b.
  assert (R1 : (0 <= a / w <= 255)%R).
  { split; apply Rmult_le_reg_r with w; try lra; unfold Rdiv; rewrite Rmult_assoc, Rinv_l by lra; lra. }
  assert (R2 : (0 <= b / (1 - w) <= 255)%R).
  { split; apply Rmult_le_reg_r with (1 - w)%R; try lra; unfold Rdiv; rewrite Rmult_assoc, Rinv_l by lra; lra. }
  set (d := (a / w - b / (1 - w))%R). assert (Hd : (Rabs d <= 255)%R) by (unfold d; apply abs_le; lra).
  pose proof (absmul _ _ _ _ Hd Hd) as Q. apply abs_inv in Q. pose proof (Rle_0_sqr d) as Q0. unfold Rsqr in Q0.
  assert (w * (1 - w) <= 1 * (1 - w))%R by (apply Rmult_le_compat_r; lra).
  assert (0 <= w * (1 - w))%R by (apply Rmult_le_pos; lra).
  apply Rle_trans with (1 * (1 - w) * (255 * 255))%R; [apply Rmult_le_compat; lra|lra].
Qed.
Lemma sep_0 t : 0 <= t < 256 -> (0 < separation c t)%R -> 0 < sum_dark c t < n.
Proof.
  intros Ht Hp. pose proof (dark_range t Ht) as D. unfold separation in Hp. unfold sum_bright in Hp. rewrite Hs in Hp. cbv zeta in Hp.
  destruct (Z.eqb_spec (sum_dark c t) 0); [cbn [orb] in Hp; lra|].
  destruct (Z.eqb_spec (n - sum_dark c t) 0); [cbn [orb] in Hp; lra|]. lia.
Qed.

Section Choice.
Context (k : R) (Hk : (12 <= k <= 267)%R) (HK : (K <= k)%R).
Let A := (k * uf)%R.

Lemma low t : 0 <= t < 256 -> (130050 * A <= separation c t)%R ->
  considered t /\ (separation c t - 1200000 * A <= cvar_at t)%R.
Proof.
  intros Ht Hp. pose proof (A_range k Hk) as HA. fold A in HA. pose proof uf_pos as U.
  pose proof (sep_0 t Ht ltac:(lra)) as Hd. pose proof (sep_le t Ht Hd) as L. destruct (W_in t Ht Hd) as [HW _].
  destruct (s_near t Ht) as [Is Ns]. pose proof (near_A k HK _ _ Ns) as N. fold A in N. apply abs_inv in N.
  assert (A * W t <= A * 1)%R by (apply Rmult_le_compat_l; lra).
  assert (S1 : (A <= 1 - s t)%R) by lra.
  assert (S2 : (0 < s t)%R).
  { destruct (s_pos t Ht) as (_ & P & _). specialize (P ltac:(lia)). lra. }
  split; [split; [auto|split; lra]|].
  pose proof (sep_near k Hk HK t Ht Hd ltac:(lra)) as E. fold A in E. apply abs_inv in E.
  assert (A / (1 - s t) <= 1)%R.
  { apply Rmult_le_reg_r with (1 - s t)%R; [lra|]. unfold Rdiv. rewrite Rmult_assoc, Rinv_l by lra. lra. }
  assert (A * (A / (1 - s t)) <= A * 1)%R by (apply Rmult_le_compat_l; lra). lra.
Qed.

Lemma high t : considered t -> (66000 * A < cvar_at t)%R ->
  0 < sum_dark c t < n /\ (s t < 1)%R /\ (cvar_at t <= separation c t + 600000 * A + 600000 * (A * (A / (1 - s t))))%R.
Proof.
  intros (Ht & S0 & S1) Hv. pose proof (A_range k Hk) as HA. fold A in HA. pose proof uf_pos as U.
  destruct (s_pos t Ht) as (P1 & P2 & P3). pose proof (dark_range t Ht) as D.
  assert (D0 : sum_dark c t <> 0) by (intros Q; apply S0; auto).
  assert (L : (s t < 1)%R).
  { destruct (Rlt_le_dec (s t) 1) as [|Q]; auto. exfalso. pose proof (cvar_neg (s t) (m t) g ltac:(lra) Q) as R.
    unfold cvar_at in Hv. lra. }
  assert (D1 : sum_dark c t <> n).
  { intros Q. pose proof (full_near k Hk HK t Ht Q L) as R. fold A in R. lra. }
  assert (Hd : 0 < sum_dark c t < n) by lia. split; auto. split; auto.
  pose proof (sep_near k Hk HK t Ht Hd L) as E. fold A in E. apply abs_inv in E. lra.
Qed.
End Choice.

Lemma split_good : exists T, otsu_threshold (hbuf c) n = Ok T /\ 0 <= T < 256 /\ forall t, 0 <= t < 256 ->
  (separation c t <= separation c T + 40)%R \/ (32768 < n /\ (separation c t <= 2600)%R).
Proof.
  destruct otsu_loop as (T & X & E & HT & X0 & HX & HM). exists T. split; auto. split; auto. intros t Ht.
  pose proof (separation_ge0 T HT) as G0. destruct (Rle_lt_dec (separation c t) 40) as [|Hp]; [left; lra|].
  pose proof K_range as KR. assert (Hk : (12 <= 267 <= 267)%R) by lra. assert (HK : (K <= 267)%R) by lra.
  set (A := (267 * uf)%R). assert (VA : (A = 267 / 16777216)%R) by (unfold A, uf; lra).
  destruct (low 267 Hk HK t Ht) as [Ct Lt]; [fold A; lra|]. fold A in Lt.
  pose proof (HM t Ct) as Mt. destruct HX as [HX|[CT HX]]; [lra|].
  destruct (high 267 Hk HK T CT) as (Hd & S1 & HH); [fold A; lra|]. fold A in HH.
  destruct (W_in T HT Hd) as [HW HN]. destruct (s_near T HT) as [Is Ns]. pose proof (near_A 267 HK _ _ Ns) as N. fold A in N. apply abs_inv in N.
  assert (AW : (A * W T <= A * 1)%R) by (apply Rmult_le_compat_l; lra).
  destruct (Rle_lt_dec (1 / 32768) (1 - W T)) as [Q|Q].
  - left. assert (S2 : (245 * uf <= 1 - s T)%R) by (unfold uf; lra).
    assert (R : (A / (1 - s T) <= 267 / 245)%R).
    { apply Rmult_le_reg_r with (1 - s T)%R; [unfold uf in *; lra|]. unfold Rdiv at 1. rewrite Rmult_assoc, Rinv_l by lra.
      unfold A. unfold uf in *. lra. }
    assert (A * (A / (1 - s T)) <= A * (267 / 245))%R by (apply Rmult_le_compat_l; lra). lra.
  - right. split.
    + apply lt_IZR. pose proof n_R as NR. destruct (Rlt_le_dec 32768 (IZR n)) as [|B]; auto. exfalso.
      assert (/ 32768 <= / IZR n)%R by (apply Rinv_le_contravar; lra). lra.
    + pose proof (sep_le T HT Hd) as L. pose proof (below_one _ _ Is S1) as BO.
      assert (R : (A / (1 - s T) <= 267)%R).
      { apply Rmult_le_reg_r with (1 - s T)%R; [lra|]. unfold Rdiv at 1. rewrite Rmult_assoc, Rinv_l by lra. unfold A. lra. }
      assert (A * (A / (1 - s T)) <= A * 267)%R by (apply Rmult_le_compat_l; lra). lra.
Qed.

(** Two levels *)
Lemma split_two u v : 0 <= u < v -> v < 256 -> (forall x, 0 <= x < 256 -> x <> u -> x <> v -> c x = 0) ->
  (1 <= separation c u)%R -> exists T, otsu_threshold (hbuf c) n = Ok T /\ u <= T < v.
Proof.
  intros Hu Hv Hz Hp.
  assert (HK : (K <= 12)%R).
  { assert (B : forall j, (j <= 256)%nat -> sum_upto lev j <= (if u <? Z.of_nat j then 1 else 0) + (if v <? Z.of_nat j then 1 else 0)).
    { induction j as [|j IH]; intros Hj; [rewrite sum_upto_0; destruct (u <? _), (v <? _); lia|].
      rewrite sum_upto_S. specialize (IH ltac:(lia)). pose proof (lev_range (Z.of_nat j)) as LR.
      assert (LZ : Z.of_nat j <> u -> Z.of_nat j <> v -> lev (Z.of_nat j) = 0) by (intros; apply lev_0; apply Hz; auto; lia).
      destruct (Z.ltb_spec u (Z.of_nat j)), (Z.ltb_spec v (Z.of_nat j)), (Z.ltb_spec u (Z.of_nat (S j))), (Z.ltb_spec v (Z.of_nat (S j))); lia. }
    specialize (B 256%nat ltac:(lia)). assert (B2 : sum_upto lev 256 <= 2) by (destruct (u <? _), (v <? _); lia).
    apply IZR_le in B2. unfold K. lra. }
  assert (Hk : (12 <= 12 <= 267)%R) by lra. set (A := (12 * uf)%R). assert (VA : (A = 12 / 16777216)%R) by (unfold A, uf; lra).
  destruct otsu_loop as (T & X & E & HT & X0 & HX & HM). exists T. split; auto.
  destruct (low 12 Hk HK u ltac:(lia)) as [Ct Lt]; [fold A; lra|]. fold A in Lt.
  pose proof (HM u Ct) as Mt. destruct HX as [HX|[CT HX]]; [lra|].
  destruct (high 12 Hk HK T CT) as (Hd & S1 & _); [fold A; lra|].
  destruct (Z_lt_ge_dec T u) as [L|L].
  - exfalso. assert (Z : sum_dark c T = 0); [|lia]. unfold sum_dark.
    assert (B : forall j, Z.of_nat j <= u -> sum_upto c j = 0).
    { induction j as [|j IH]; intros Hj; [apply sum_upto_0|]. rewrite sum_upto_S, IH by lia. apply Hz; lia. }
    apply B. lia.
  - destruct (Z_lt_ge_dec T v) as [L2|L2]; [lia|]. exfalso. assert (Z : sum_dark c T = n); [|lia]. unfold sum_dark. rewrite <- Hs.
    assert (B : forall j, v < Z.of_nat j -> (j <= 256)%nat -> sum_upto c j = sum_upto c (Z.to_nat (v + 1))).
    { induction j as [|j IH]; intros Hj Hj'; [lia|]. destruct (Z.eq_dec v (Z.of_nat j)) as [Q|Q].
      - f_equal. lia.
      - rewrite sum_upto_S, IH by lia. rewrite Hz; lia. }
    rewrite (B (Z.to_nat (T + 1))) by lia. rewrite (B 256%nat) by lia. reflexivity.
Qed.

(** Black and white only *)
Section Bw.
Hypothesis Hbw : forall v, 0 < v < 255 -> c v = 0.

Lemma bw_sums j : (1 <= j <= 255)%nat -> sum_upto c j = c 0 /\ sum_upto vc j = 0.
Proof.
  intros [H1 H2]. induction H1 as [|j H1 IH].
  - rewrite !sum_upto_S, !sum_upto_0. unfold vc. cbn. lia.
  - destruct (IH ltac:(lia)) as [I1 I2]. rewrite !sum_upto_S, I1, I2. unfold vc. rewrite (Hbw (Z.of_nat j)) by lia. lia.
Qed.
Lemma bw_total : c 0 + c 255 = n.
Proof. rewrite <- Hs. change 256%nat with (S 255). rewrite sum_upto_S. destruct (bw_sums 255 ltac:(lia)) as [-> _]. reflexivity. Qed.
Lemma bw_same t : 0 <= t < 255 -> s t = s 0 /\ m t = 0%R.
Proof.
  intros Ht. split.
  - apply (fsum_same n ltac:(lia) pf c lev pf_ok (idx 0) (idx t)); [unfold idx; lia|].
    intros v Hv. apply lev_0. apply Hbw. unfold idx in Hv. lia.
  - destruct (m_near t ltac:(lia)) as [_ N]. pose proof K_range. pose proof (near_half _ _ _ N ltac:(lra)) as H1.
    assert (M t = 0)%R.
    { unfold M, sum_dark. destruct (bw_sums (Z.to_nat (t + 1)) ltac:(lia)) as [_ ->]. unfold Rdiv. lra. }
    destruct N. lra.
Qed.
Lemma bw_at t : 0 <= t < 255 -> cvar_at t = cvar_at 0.
Proof. intros Ht. unfold cvar_at. destruct (bw_same t Ht) as [-> ->]. destruct (bw_same 0 ltac:(lia)) as [_ ->]. reflexivity. Qed.

(** The threshold separates the two, or nothing. *)
Lemma bw_ends : exists T X, otsu_threshold (hbuf c) n = Ok T /\ (T = 0 \/ T = 255 /\ considered T /\ X = cvar_at T /\ (0 < X)%R) /\
  (considered 0 -> 0 < T -> (cvar_at 0 < X)%R).
Proof.
  destruct otsu_loop_first as (T & X & E & HT & X0 & HX & _ & HF). exists T, X. split; auto. split; [|auto].
  destruct (Z.eq_dec T 0) as [|N0]; [auto|]. destruct HX as [[_ ?]|(CT & EX & X1)]; [auto|].
  destruct (Z.eq_dec T 255) as [|N1]; [auto|]. exfalso.
  assert (C0 : considered 0).
  { destruct CT as (_ & A1 & A2). destruct (bw_same T ltac:(lia)) as [E1 _]. rewrite E1 in A1, A2. split; [lia|auto]. }
  pose proof (HF 0 ltac:(lia) C0). rewrite EX, (bw_at T) in H by lia. lra.
Qed.

Lemma bw_small : n <= 16777216 -> otsu_threshold (hbuf c) n = Ok 0.
Proof.
  intros Hsm. destruct bw_ends as (T & X & E & [->|(-> & CT & EX & X0)] & HF); [exact E|exfalso].
  pose proof bw_total as BT. pose proof (Hc 0 ltac:(lia)) as H0. pose proof (Hc 255 ltac:(lia)) as H255. pose proof n_R as NR.
  set (x := (IZR (c 0) / IZR n)%R). set (q := rf (1 - x)).
  assert (E1 : (IZR (c 255) / IZR n = 1 - x)%R).
  { unfold x. replace (c 255) with (n - c 0) by lia. rewrite minus_IZR. field. lra. }
  assert (X01 : (0 <= x <= 1)%R).
  { assert (0 <= IZR (c 0) <= IZR n)%R by (split; apply IZR_le; lia). unfold x.
    split; apply Rmult_le_reg_r with (IZR n); try lra; unfold Rdiv; rewrite Rmult_assoc, Rinv_l by lra; lra. }
  assert (Ip : isf (pf 0) (rf x)).
  { apply fdiv_R; try (apply f_of_Z_exact; lia); [lra|]. apply ok100. fold x. lra. }
  assert (Iq : isf (pf 255) q).
  { unfold q. rewrite <- E1. apply fdiv_R; try (apply f_of_Z_exact; lia); [lra|]. apply ok100. rewrite E1. lra. }
  assert (RI : forall t, rf (rf t) = rf t).
  { intros t. apply gr_format; auto with typeclass_instances. apply generic_format_round; [apply vfexp; exact prec32|apply valid_rnd_N]. }
  assert (P1 : (0 <= rf x <= 1)%R) by (split; [apply rf_sign_ge; lra|rewrite <- rf_1; apply rf_mono; lra]).
  assert (Q1 : (0 <= q <= 1)%R).
  { unfold q. split; [apply rf_sign_ge; lra|]. apply Rle_trans with (rf 1); [apply rf_mono; lra|rewrite rf_1; lra]. }
  assert (S0 : s 0 = rf x).
  { unfold s, idx. change (Z.to_nat (0 + 1)) with (S 0). rewrite fsum_S, fsum_0. change (Z.of_nat 0) with 0.
    assert (A : isf (fadd f0 (pf 0)) (rf (0 + rf x))) by (apply fadd_R; auto; [apply isf_0|apply ok100; lra]).
    destruct A as [_ ->]. rewrite Rplus_0_l. apply RI. }
  assert (S255 : s 255 = rf (rf x + q)).
  { unfold s, idx. change (Z.to_nat (255 + 1)) with (S 255). rewrite fsum_S. change (Z.of_nat 255) with 255.
    destruct (s_near 254 ltac:(lia)) as [I _]. unfold idx in I. change (Z.to_nat (254 + 1)) with 255%nat in I.
    destruct (bw_same 254 ltac:(lia)) as [Q _]. rewrite Q, S0 in I.
    assert (A : isf (fadd (fsum pf 255) (pf 255)) (rf (rf x + q))) by (apply fadd_R; auto; apply ok100; lra).
    apply A. }
  assert (M255 : m 255 = rf (255 * q)).
  { unfold m, idx. change (Z.to_nat (255 + 1)) with (S 255). rewrite fsum_S. change (Z.of_nat 255) with 255.
    destruct (m_near 254 ltac:(lia)) as [I _]. unfold idx in I. change (Z.to_nat (254 + 1)) with 255%nat in I.
    destruct (bw_same 254 ltac:(lia)) as [_ Q]. rewrite Q in I.
    assert (B : isf (qf 255) (rf (255 * q))) by (apply fmul_R; auto; [apply (f_of_Z_exact 255); lia|apply ok100; lra]).
    assert (0 <= rf (255 * q) <= 300)%R.
    { split; [apply rf_sign_ge; lra|]. apply Rle_trans with (rf 256); [apply rf_mono; lra|]. rewrite (rf_IZR 256) by lia. lra. }
    assert (A : isf (fadd (fsum qf 255) (qf 255)) (rf (0 + rf (255 * q)))) by (apply fadd_R; auto; apply ok100; lra).
    destruct A as [_ ->]. rewrite Rplus_0_l. apply RI. }
  destruct CT as (_ & C1 & C2).
  assert (N0 : c 0 <> 0).
  { intros Z. apply C2. rewrite S255. unfold q. replace x with 0%R by (unfold x; rewrite Z; unfold Rdiv; lra).
    rewrite rf_0, Rminus_0_r, rf_1, Rplus_0_l. apply rf_1. }
  assert (N1 : c 255 <> 0).
  { intros Z. apply C2. rewrite S255. unfold q. rewrite Z in E1. replace x with 1%R by (unfold Rdiv in E1; lra).
    rewrite (Rminus_diag_eq 1 1 eq_refl), rf_0, rf_1, Rplus_0_r. apply rf_1. }
  assert (HX : (uf <= x <= 1 - uf)%R).
  { assert (U : (uf <= / IZR n)%R).
    { unfold uf. replace (1 / 16777216)%R with (/ 16777216)%R by lra. apply Rinv_le_contravar; [lra|]. apply IZR_le. lia. }
    assert (forall k, 1 <= k -> (uf <= IZR k / IZR n)%R).
    { intros k Hk. pose proof uf_pos. apply IZR_le in Hk. unfold Rdiv. apply Rle_trans with (1 * / IZR n)%R; [lra|]. apply Rmult_le_compat_r; lra. }
    split; [apply H; lia|]. assert (uf <= 1 - x)%R by (rewrite <- E1; apply H; lia). lra. }
  assert (C0 : considered 0).
  { pose proof uf_pos. split; [lia|]. rewrite S0.
    assert (uf <= rf x)%R by (apply Rle_trans with (rf uf); [rewrite rf_uf; lra|apply rf_mono; lra]).
    assert (rf x <= 1 - uf)%R by (apply Rle_trans with (rf (1 - uf)); [apply rf_mono; lra|rewrite rf_1uf; lra]). lra. }
  specialize (HF C0 ltac:(lia)).
  destruct (Rlt_le_dec (s 255) 1) as [L|L].
  - assert (cvar_at 255 <= cvar_at 0)%R; [|lra]. unfold cvar_at. fold g. destruct (bw_same 0 ltac:(lia)) as [_ ->].
    unfold g. rewrite M255, S255, S0. apply bw_real; auto. fold q. rewrite <- S255. exact L.
  - assert (cvar_at 255 <= 0)%R; [|lra]. apply cvar_neg; lra.
Qed.
End Bw.
End Counts.
