(** * P_Blur: proofs about the blur *)
From Coq Require Import Reals Lra Psatz.
From Flocq Require Import Core BinarySingleNaN.
From Verif Require Import Base BaseLemmas F FLemmas FErr FLemmas32 FNear Heap Spec HeapLemmas Spec_Blur M_Blur P_Color ExUtil.
Local Open Scope Z_scope.

(** ** Sums *)
Lemma rsum_ext n lo f g : (forall k, lo <= k < lo + Z.of_nat n -> f k = g k) -> rsum n lo f = rsum n lo g.
Proof.
  revert lo; induction n; intros lo H; auto. cbn [rsum]. rewrite H by lia. f_equal. apply IHn. intros; apply H; lia.
Qed.
Lemma rsum_snoc n lo f : rsum (S n) lo f = (rsum n lo f + f (lo + Z.of_nat n)%Z)%R.
Proof.
  revert lo; induction n; intros lo.
  - cbn [rsum]. rewrite Z.add_0_r. ring.
  - change (rsum (S (S n)) lo f) with (f lo + rsum (S n) (lo + 1) f)%R. rewrite IHn.
    cbn [rsum]. replace (lo + 1 + Z.of_nat n) with (lo + Z.of_nat (S n)) by lia. ring.
Qed.
Lemma rsum_le n lo f g : (forall k, lo <= k < lo + Z.of_nat n -> (f k <= g k)%R) -> (rsum n lo f <= rsum n lo g)%R.
Proof.
  revert lo; induction n; intros lo H; cbn [rsum]; [lra|].
  apply Rplus_le_compat; [apply H; lia|]. apply IHn. intros; apply H; lia.
Qed.
Lemma rsum_scale n lo c f : rsum n lo (fun k => (c * f k)%R) = (c * rsum n lo f)%R.
Proof. revert lo; induction n; intros lo; cbn [rsum]; [ring|]. rewrite IHn. ring. Qed.
Lemma rsum_pos n lo f : (forall k, (0 <= f k)%R) -> (0 <= rsum n lo f)%R.
Proof. revert lo; induction n; intros lo H; cbn [rsum]; [lra|]. pose proof (H lo). pose proof (IHn (lo + 1) H). lra. Qed.
Lemma rsum_ge n lo f k : (forall k, (0 <= f k)%R) -> lo <= k < lo + Z.of_nat n -> (f k <= rsum n lo f)%R.
Proof.
  revert lo; induction n; intros lo H Hk; [lia|]. cbn [rsum]. destruct (Z.eq_dec k lo) as [->|].
  - pose proof (rsum_pos n (lo + 1) f H). lra.
  - pose proof (H lo). pose proof (IHn (lo + 1) H ltac:(lia)). lra.
Qed.

Lemma total_ext lo hi f g : (forall k, lo <= k <= hi -> f k = g k) -> total lo hi f = total lo hi g.
Proof. intros H. apply rsum_ext. intros; apply H; lia. Qed.
Lemma total_snoc lo hi f : lo <= hi + 1 -> total lo (hi + 1) f = (total lo hi f + f (hi + 1)%Z)%R.
Proof.
  intros H. unfold total. replace (Z.to_nat (hi + 1 - lo + 1)) with (S (Z.to_nat (hi - lo + 1))) by lia.
  rewrite rsum_snoc. do 2 f_equal. lia.
Qed.
Lemma total_empty lo f : total lo (lo - 1) f = 0%R.
Proof. unfold total. replace (Z.to_nat (lo - 1 - lo + 1)) with 0%nat by lia. reflexivity. Qed.

(** ** Bell curve *)
Lemma bell_pos r t : (0 < bell r t)%R.
Proof. apply exp_pos. Qed.
Lemma bell_le1 r t : (0 < r)%R -> (bell r t <= 1)%R.
Proof.
  intros Hr. unfold bell. rewrite <- exp_0. apply Raux.exp_le.
  assert (0 <= 9 * (t * t) / (2 * (r * r)))%R; [|lra].
  apply Rmult_le_pos; [nra|]. apply Rlt_le, Rinv_0_lt_compat. nra.
Qed.
Lemma weight_pos r k : (0 < weight r k)%R.
Proof. apply bell_pos. Qed.
Lemma inside_pos n x f k : (forall k, (0 <= f k)%R) -> (0 <= inside n x f k)%R.
Proof. intros H. unfold inside. destruct (_ && _); auto. lra. Qed.

Section Mean.
Context (r : R) (n x : Z).
Hypothesis (Hr : (0 <= r)%R) (Hx : 0 <= x < n).

Lemma floor_pos : 0 <= Zfloor r.
Proof. apply Zfloor_lub. exact Hr. Qed.
Lemma wsum_pos : (0 < total (- Zfloor r) (Zfloor r) (inside n x (weight r)))%R.
Proof.
  pose proof floor_pos as F. eapply Rlt_le_trans; [apply (weight_pos r 0)|].
  replace (weight r 0) with (inside n x (weight r) 0).
  - apply rsum_ge; [|lia]. intros k. apply inside_pos. intros; apply Rlt_le, weight_pos.
  - unfold inside. replace ((0 <=? x + 0) && (x + 0 <? n)) with true by lia. reflexivity.
Qed.
Lemma mean_le d d' : (forall i, 0 <= i < n -> (d i <= d' i)%R) -> (mean r n x d <= mean r n x d')%R.
Proof.
  intros H. unfold mean. apply Rmult_le_compat_r; [apply Rlt_le, Rinv_0_lt_compat, wsum_pos|].
  apply rsum_le. intros k _. unfold inside. destruct ((0 <=? x + k) && (x + k <? n)) eqn:E; [|lra].
  apply Rmult_le_compat_l; [apply Rlt_le, weight_pos|]. apply H. lia.
Qed.
Lemma mean_affine d c e : mean r n x (fun i => (c * d i + e)%R) = (c * mean r n x d + e)%R.
Proof.
  unfold mean. pose proof wsum_pos as W. set (ws := total _ _ (inside n x (weight r))) in *.
  assert (E : total (- Zfloor r) (Zfloor r) (inside n x (fun k => weight r k * (c * d (x + k)%Z + e))%R) =
    (c * total (- Zfloor r) (Zfloor r) (inside n x (fun k => weight r k * d (x + k)%Z)%R) + e * ws)%R).
  { unfold ws, total. generalize (Z.to_nat (Zfloor r - - Zfloor r + 1)). generalize (- Zfloor r). clear.
    intros lo m. revert lo; induction m; intros lo; cbn [rsum]; [ring|]. rewrite IHm.
    unfold inside. destruct ((0 <=? x + lo) && (x + lo <? n)); ring. }
  rewrite E. field. lra.
Qed.
Lemma mean_const e : mean r n x (fun _ => e) = e.
Proof.
  pose proof (mean_affine (fun _ => 0%R) 0 e) as H. rewrite Rmult_0_l, Rplus_0_l in H. etransitivity; [|exact H].
  unfold mean. f_equal. apply total_ext. intros k _. unfold inside. destruct (_ && _); cbv beta; ring.
Qed.
Lemma mean_bounds d lo hi : (forall i, 0 <= i < n -> (lo <= d i <= hi)%R) -> (lo <= mean r n x d <= hi)%R.
Proof.
  intros H. split.
  - rewrite <- (mean_const lo). apply mean_le. intros; apply H; auto.
  - rewrite <- (mean_const hi). apply mean_le. intros; apply H; auto.
Qed.
End Mean.

(** ** The kernel *)
Section Kernel.
Context (e : f64 -> f64) (radius : f64) (r : R).
Hypothesis (He : exp_ok e) (Hd : isd radius r) (Hr : (1 / 1000000000000 <= r <= 1000)%R).
Local Notation R0 := (Zfloor r).

Lemma R0_range : 0 <= R0 <= 1000.
Proof.
  split; [apply Zfloor_lub; simpl; lra|]. apply Z.lt_succ_r. apply lt_IZR. unfold Z.succ. rewrite plus_IZR.
  pose proof (Zfloor_lb r). lra.
Qed.

Lemma sigma_near : exists sg, isf (sigma radius) sg /\ near (2) sg (r / 3).
Proof.
  unfold sigma. pose proof (ddiv_R _ _ _ _ Hd (d_of_Z_exact 3 ltac:(lia)) ltac:(lra)) as E.
  specialize (E ltac:(apply ok1000; lra)).
  pose proof (near_rd 0 (r / 3) (r / 3) (near_refl (r / 3) ltac:(lra)) ltac:(right; lra) ltac:(lra)) as N1.
  pose proof (near_half _ _ _ N1 ltac:(lra)) as B1.
  pose proof (f_of_d_R _ _ E ltac:(apply ok100; lra)) as E2.
  exists (rf (rd (r / 3))). split; auto.
  eapply near_weak; [apply near_rf; [exact N1|right; lra|lra]|lra].
Qed.

Lemma tss_near : exists T, isf (two_sigma_sq radius) T /\ near (9) T (2 * ((r / 3) * (r / 3))).
Proof.
  destruct sigma_near as (sg & E & N). unfold two_sigma_sq. cbv zeta.
  pose proof (near_half _ _ _ N ltac:(lra)) as B.
  assert (RR : (1 / 10000000000000000000000000 <= (r / 3) * (r / 3) <= 200000)%R).
  { split.
    - apply Rle_trans with (1 / 3000000000000 * (1 / 3000000000000))%R; [lra|]. apply Rmult_le_compat; lra.
    - apply Rle_trans with (1000 / 3 * (1000 / 3))%R; [|lra]. apply Rmult_le_compat; lra. }
  pose proof (near_mul _ _ _ _ _ _ N N ltac:(lra) ltac:(lra)) as N2.
  pose proof (near_half _ _ _ N2 ltac:(lra)) as B2.
  pose proof (fmul_R _ _ _ _ E E ltac:(apply ok100; lra)) as E2.
  pose proof (near_rf _ _ _ N2 ltac:(right; lra) ltac:(lra)) as N3.
  pose proof (near_half _ _ _ N3 ltac:(lra)) as B3.
  pose proof (fmul_R _ _ _ _ (f_of_Z_exact 2 ltac:(lia)) E2 ltac:(apply ok100; lra)) as E4.
  eexists. split; [exact E4|].
  pose proof (near_scale _ 2 _ _ ltac:(lra) N3) as N4.
  eapply near_weak; [apply near_rf; [exact N4|right; lra|lra]|lra].
Qed.

Lemma spi_range : exists S, isf (sqrt_two_pi_sigma radius) S /\ (r / 4 <= S <= 2 * r)%R.
Proof.
  destruct sigma_near as (sg & E & N). unfold sqrt_two_pi_sigma.
  pose proof (near_half _ _ _ N ltac:(lra)) as B.
  assert (Ec : exists c, isd (dsqrt (dmul (d_of_Z 2) m_pi)) c /\ (2 <= c <= 3)%R).
  { assert (Ep : exists p, isd m_pi p /\ (3 <= p <= 4)%R).
    { exists (B2R m_pi). split; [split; [vm_compute|]; reflexivity|]. 
      assert (V : m_pi = binary_normalize 53 1024 _ _ mode_NE 884279719003555 (-48) false) by reflexivity.
      pose proof (binary_normalize_correct 53 1024 _ _ mode_NE 884279719003555 (-48) false) as C. cbv zeta in C.
      assert (VV : F2R (Float radix2 884279719003555 (-48)) = (IZR 884279719003555 * bpow radix2 (-48))%R) by reflexivity.
      rewrite VV in C. cbv [round_mode] in C. fold (rd (IZR 884279719003555 * bpow radix2 (-48))) in C.
      rewrite rd_dyadic in C by lia.
      assert (X : (3 <= IZR 884279719003555 * bpow radix2 (-48) <= 4)%R).
      { change (bpow radix2 (-48)) with (/ 281474976710656)%R. lra. }
      rewrite Rlt_bool_true in C.
      - rewrite <- V in C. destruct C as [C _]. rewrite C. exact X.
      - rewrite Rabs_pos_eq by lra. apply Rle_lt_trans with (bpow radix2 2); [change (bpow radix2 2) with 4%R; lra|].
        apply bpow_lt. lia. }
    destruct Ep as (p & Ep & Hp).
    pose proof (dmul_R _ _ _ _ (d_of_Z_exact 2 ltac:(lia)) Ep ltac:(apply ok1000; lra)) as E2.
    assert (H2 : (4 <= rd (2 * p) <= 8)%R) by (split; [apply (rd_ge_Z _ 4)|apply (rd_le_Z _ 8)]; try lia; lra).
    pose proof (dsqrt_R _ _ E2 ltac:(lra)) as E3. eexists. split; [exact E3|].
    split; [apply (rd_ge_Z _ 2)|apply (rd_le_Z _ 3)]; try lia.
    - apply Rle_trans with (sqrt (2 * 2)); [rewrite sqrt_square; lra|]. apply sqrt_le_1_alt. lra.
    - apply Rle_trans with (sqrt (3 * 3)); [|rewrite sqrt_square; lra]. apply sqrt_le_1_alt. lra. }
  destruct Ec as (c & Ec & Hc).
  assert (P : (2 * (r / 3 * (9 / 10)) <= c * sg <= 3 * (r / 3 * (11 / 10)))%R) by (split; apply Rmult_le_compat; lra).
  pose proof (dmul_R _ _ _ _ Ec (d_of_f_R _ _ E) ltac:(apply ok1000; lra)) as E2.
  pose proof (near_rd 0 (c * sg) (c * sg) (near_refl (c * sg) ltac:(lra)) ltac:(right; lra) ltac:(lra)) as N1.
  pose proof (near_half _ _ _ N1 ltac:(lra)) as B1.
  pose proof (near_rf _ _ _ N1 ltac:(right; lra) ltac:(lra)) as N2.
  pose proof (near_half _ _ _ N2 ltac:(lra)) as B2.
  eexists. split; [apply (f_of_d_R _ _ E2); apply ok100; lra|]. lra.
Qed.

(** The subtraction [i - radius] is exact. *)
Lemma sub_exact i : 0 <= i -> (IZR i <= 2 * r)%R -> isd (dsub (d_of_Z i) radius) (IZR i - r).
Proof.
  intros Hi H2.
  assert (Hi' : i <= 2000) by (apply le_IZR; lra).
  assert (E : rd (IZR i - r) = (IZR i - r)%R).
  { destruct Hd as [Fd Vd]. pose proof (generic_format_B2R 53 1024 radius) as G. rewrite Vd in G.
    assert (G' : FLT_format radix2 (-1074) 53 r) by (apply FLT_format_generic; [exact prec64|exact G]).
    destruct G' as [[m ex] E1 E2 E3]. cbn [Fnum Fexp] in *.
    destruct (Z_le_gt_dec 0 ex) as [C|C].
    - assert (E4 : r = IZR (m * 2 ^ ex)).
      { rewrite E1. unfold F2R. cbn [Fnum Fexp]. rewrite mult_IZR. f_equal. change 2 with (radix_val radix2).
        rewrite IZR_Zpower by lia. reflexivity. }
      rewrite E4 in *. rewrite <- minus_IZR. apply rd_IZR.
      destruct Hr as [_ U]. apply le_IZR in U. assert (0 <= m * 2 ^ ex) by (apply le_IZR; lra). lia.
    - assert (E4 : (IZR i - r = IZR (i * 2 ^ (- ex) - m) * bpow radix2 ex)%R).
      { rewrite minus_IZR, mult_IZR. rewrite E1. unfold F2R. cbn [Fnum Fexp].
        change 2 with (radix_val radix2). rewrite IZR_Zpower by lia.
        rewrite Rmult_minus_distr_r, Rmult_assoc, <- bpow_plus. replace (- ex + ex) with 0 by lia. simpl. ring. }
      rewrite E4. apply rd_dyadic; [|lia].
      assert (B : (Rabs (IZR (i * 2 ^ (- ex) - m)) <= Rabs (IZR m))%R).
      { apply Rmult_le_reg_r with (bpow radix2 ex); [apply bpow_gt_0|].
        rewrite <- (Rabs_pos_eq (bpow radix2 ex)) at 1 2 by apply bpow_ge_0. rewrite <- !Rabs_mult.
        rewrite <- E4. replace (IZR m * bpow radix2 ex)%R with r by (rewrite E1; reflexivity).
        rewrite (Rabs_pos_eq r) by lra. apply Rabs_le. assert (0 <= IZR i)%R by (apply IZR_le; lia). lra. }
      rewrite <- !abs_IZR in B. apply le_IZR in B. change (radix2 ^ 53) with 9007199254740992 in E2. lia. }
  rewrite <- E. apply dsub_R; auto. apply d_of_Z_exact; lia.
  apply Rle_trans with (bpow radix2 100); [|apply bpow_le; lia]. pose proof big100.
  assert (0 <= IZR i)%R by (apply IZR_le; lia). apply Rabs_le. lra.
Qed.

Lemma trunc_abs a : (Rabs (IZR (Ztrunc a)) <= Rabs a)%R.
Proof.
  unfold Ztrunc. destruct (Rlt_bool_spec a 0).
  - pose proof (Zceil_ub a). pose proof (Zceil_glb 0 a ltac:(simpl; lra)) as G. apply IZR_le in G.
    rewrite !Rabs_left1 by lra. lra.
  - pose proof (Zfloor_lb a). pose proof (Zfloor_lub 0 a ltac:(simpl; lra)) as G. apply IZR_le in G.
    rewrite !Rabs_pos_eq by lra. lra.
Qed.

Definition tdist (i : Z) : Z := Ztrunc (IZR i - r).

Lemma tdist_le i : 0 <= i -> (IZR i <= 2 * r)%R -> (Rabs (IZR (tdist i)) <= r)%R /\ Z.abs (tdist i) <= 1000.
Proof.
  intros Hi H2. assert (0 <= IZR i)%R by (apply IZR_le; lia).
  assert (A : (Rabs (IZR (tdist i)) <= r)%R).
  { eapply Rle_trans; [apply trunc_abs|]. apply Rabs_le. lra. }
  split; auto. apply le_IZR. rewrite abs_IZR. lra.
Qed.

Lemma to_i32_gen x a : isd x a -> (Rabs a <= 2000000000)%R -> to_i32 x = Ok (Ztrunc a).
Proof.
  intros H B. apply Rabs_le_inv in B. unfold to_i32.
  apply (cast_int_R INT_MIN INT_MAX x a H); unfold INT_MIN, INT_MAX; try lia; lra.
Qed.

Lemma exp_small x : (0 <= x <= 1 / 1000)%R -> (1 - x <= exp (- x) /\ exp x <= 1 + 11 / 10 * x)%R.
Proof.
  intros Hx. assert (L : (1 - x <= exp (- x))%R).
  { destruct (Req_dec x 0) as [->|N]; [rewrite Ropp_0, exp_0; lra|]. pose proof (exp_ineq1 (- x) ltac:(lra)). lra. }
  split; auto.
  assert (P : (exp x * exp (- x) = 1)%R) by (rewrite <- exp_plus, Rplus_opp_r; apply exp_0).
  pose proof (exp_pos x). assert ((exp x * (1 - x) <= 1)%R) by (rewrite <- P; apply Rmult_le_compat_l; lra).
  apply Rmult_le_reg_r with (1 - x)%R; [lra|]. eapply Rle_trans; [eassumption|]. nra.
Qed.

Lemma exp_m5 x : (-5 <= x)%R -> (1 / 243 <= exp x)%R.
Proof.
  intros H. apply Rle_trans with (exp (-5)); [|apply Raux.exp_le; auto].
  assert (E5 : (exp 5 <= 243)%R).
  { replace 5%R with (1 + 1 + 1 + 1 + 1)%R by lra. rewrite !exp_plus. pose proof exp_le_3. pose proof (exp_pos 1).
    set (z := exp 1) in *. assert (z * z <= 9)%R by nra. assert (0 <= z * z)%R by nra.
    assert (z * z * z * z <= 81)%R by (replace (z * z * z * z)%R with ((z * z) * (z * z))%R by ring; nra).
    assert (0 <= z * z * z * z)%R by (replace (z * z * z * z)%R with ((z * z) * (z * z))%R by ring; nra). nra. }
  replace (-5)%R with (- (5))%R by lra. rewrite exp_Ropp. pose proof (exp_pos 5). unfold Rdiv. rewrite Rmult_1_l. apply Rinv_le; lra.
Qed.

(** One kernel element: proportional to the bell curve *)
Lemma kernel_at_near S : isf (sqrt_two_pi_sigma radius) S -> (r / 4 <= S <= 2 * r)%R ->
  forall i, 0 <= i -> (IZR i <= 2 * r)%R -> exists K kr, kernel_at e radius i = Ok K /\ isf K kr /\
    near 112 kr (bell r (IZR (tdist i)) * / S).
Proof.
  intros HS SR i Hi H2. destruct (tdist_le i Hi H2) as [T1 T2]. set (t := tdist i) in *.
  destruct tss_near as (T & ET & NT).
  unfold kernel_at.
  rewrite (to_i32_gen _ _ (sub_exact i Hi H2)).
  2: { assert (0 <= IZR i)%R by (apply IZR_le; lia). apply Rabs_le. lra. }
  cbn [bind]. fold (tdist i). fold t.
  rewrite ck32_ok by (unfold INT_MIN, INT_MAX; nia). cbn [bind].
  rewrite ck32_ok by (unfold INT_MIN, INT_MAX; nia). cbn [bind].
  pose proof (near_half _ _ _ NT ltac:(lra)) as BT.
  assert (RR : (1 / 1000000000000000000000000 <= r * r <= 1000000)%R).
  { split.
    - apply Rle_trans with (1 / 1000000000000 * (1 / 1000000000000))%R; [lra|]. apply Rmult_le_compat; lra.
    - apply Rle_trans with (1000 * 1000)%R; [|lra]. apply Rmult_le_compat; lra. }
  assert (TT : (IZR (t * t) <= r * r)%R).
  { rewrite mult_IZR. rewrite <- (Rabs_pos_eq (IZR t * IZR t)) by apply Rle_0_sqr. rewrite Rabs_mult.
    apply Rmult_le_compat; auto; apply Rabs_pos. }
  assert (T0 : (0 <= IZR (t * t))%R) by (apply IZR_le; nia).
  assert (TZ : IZR (t * t) = 0%R \/ (1 <= IZR (t * t))%R).
  { destruct (Z.eq_dec t 0) as [->|]; [left; reflexivity|right; apply IZR_le; nia]. }
  set (tt := IZR (t * t)) in *.
  set (A := (9 * tt / (2 * (r * r)))%R).
  assert (AE : (tt / (2 * (r / 3 * (r / 3))) = A)%R) by (unfold A; field; lra).
  assert (A45 : (0 <= A <= 9 / 2)%R).
  { unfold A. split; [apply Rmult_le_pos; [lra|apply Rlt_le, Rinv_0_lt_compat; lra]|].
    apply Rmult_le_reg_r with (2 * (r * r))%R; [lra|]. replace (9 * tt / (2 * (r * r)) * (2 * (r * r)))%R with (9 * tt)%R by (field; lra). lra. }
  assert (AZ : A = 0%R \/ (1 / 1000000 <= A)%R).
  { destruct TZ as [Z|Z]; [left; unfold A; rewrite Z; field; lra|right].
    unfold A. apply Rmult_le_reg_r with (2 * (r * r))%R; [lra|]. replace (9 * tt / (2 * (r * r)) * (2 * (r * r)))%R with (9 * tt)%R by (field; lra). lra. }
  (* the exponent *)
  pose proof (near_div _ _ _ _ _ _ (near_refl tt T0) NT ltac:(lra) ltac:(lra) ltac:(lra)) as NQ.
  rewrite AE in NQ. pose proof (near_half _ _ _ NQ ltac:(lra)) as BQ.
  assert (ZQ : nz (tt / T)) by (destruct AZ as [Z|Z]; [left|right]; lra).
  pose proof (near_rf _ _ _ NQ ZQ ltac:(lra)) as NQ2. pose proof (near_half _ _ _ NQ2 ltac:(lra)) as BQ2.
  set (q := rf (tt / T)) in *.
  assert (Eq : isf (fdiv (f_of_Z (- (t * t))) (two_sigma_sq radius)) (- q)).
  { unfold q, gr. rewrite <- round_NE_opp.
    replace (- (tt / T))%R with (IZR (- (t * t)) / T)%R by (unfold tt; rewrite opp_IZR; field; lra).
    apply fdiv_R; auto; [apply f_of_Z_exact; nia|lra|].
    rewrite opp_IZR. fold tt. replace (- tt / T)%R with (- (tt / T))%R by (field; lra). rewrite Rabs_Ropp. apply ok100. lra. }
  pose proof (d_of_f_R _ _ Eq) as [Fq Vq].
  set (X := d_of_f (fdiv (f_of_Z (- (t * t))) (two_sigma_sq radius))) in *.
  destruct (proj2 (proj2 He) X Fq) as [FE VE]; [rewrite Vq; lra|]. rewrite Vq in VE.
  (* its exponential *)
  assert (NE : near 105 (B2R (e X)) (bell r (IZR t))).
  { assert (BE : bell r (IZR t) = exp (- A)) by (unfold bell, A, tt; rewrite mult_IZR; reflexivity).
    rewrite BE. pose proof (exp_pos (- A)) as PA.
    set (dl := (A - q)%R).
    assert (Hdl : (- (1 / 300000) <= dl <= 1 / 300000)%R).
    { destruct NQ2 as (_ & L1 & L2). unfold dl.
      assert (A * ((0 + 9 + 2 + 101 / 100) * uf) <= 1 / 300000)%R.
      { apply Rle_trans with (9 / 2 * ((0 + 9 + 2 + 101 / 100) * uf))%R; [|unfold uf; lra].
        apply Rmult_le_compat_r; [unfold uf; lra|lra]. }
      lra. }
    assert (EX : exp (- q) = (exp (- A) * exp dl)%R) by (rewrite <- exp_plus; f_equal; unfold dl; lra).
    assert (ED : (1 - 1 / 300000 <= exp dl <= 1 + 1 / 200000)%R).
    { destruct (Rle_or_lt 0 dl).
      - destruct (exp_small dl ltac:(lra)) as [E1 E2]. split; [|lra].
        destruct (Req_dec dl 0) as [->|N]; [rewrite exp_0; lra|]. pose proof (exp_ineq1 dl N). lra.
      - destruct (exp_small (- dl) ltac:(lra)) as [E1 E2]. rewrite Ropp_involutive in E1. split; [lra|].
        apply Rle_trans with (exp 0); [apply Raux.exp_le; lra|rewrite exp_0; lra]. }
    rewrite EX in VE. split; [lra|].
    assert (exp (- A) * (1 - 1 / 300000) <= exp (- A) * exp dl <= exp (- A) * (1 + 1 / 200000))%R by (split; apply Rmult_le_compat_l; lra).
    set (z := (exp (- A) * exp dl)%R) in *. unfold uf. clearbody z. set (ea := exp (- A)) in *. clearbody ea.
    split; lra. }
  pose proof (near_half _ _ _ NE ltac:(lra)) as BE.
  pose proof (bell_le1 r (IZR t) ltac:(lra)) as B1.
  assert (B0 : (1 / 243 <= bell r (IZR t))%R).
  { unfold bell. rewrite <- mult_IZR. change (IZR (t * t)) with tt. fold A. apply exp_m5. lra. }
  (* divided *)
  pose proof (near_div _ 0 _ _ S S NE (near_refl S ltac:(lra)) ltac:(lra) ltac:(lra) ltac:(lra)) as ND.
  assert (SI : (1 / 2000 <= / S <= 4000000000000)%R).
  { split; [unfold Rdiv; rewrite Rmult_1_l; apply Rinv_le; lra|].
    replace 4000000000000%R with (/ (1 / 4000000000000))%R by (field; lra). apply Rinv_le; lra. }
  assert (QB : (1 / 243 * (1 / 2000) <= bell r (IZR t) / S <= 1 * 4000000000000)%R).
  { unfold Rdiv at 3. split; apply Rmult_le_compat; lra. }
  pose proof (near_half _ _ _ ND ltac:(lra)) as BD.
  assert (EV : isd (e X) (B2R (e X))) by (split; auto).
  pose proof (ddiv_R _ _ _ _ EV (d_of_f_R _ _ HS) ltac:(lra) ltac:(apply ok1000; lra)) as EDv.
  pose proof (near_rd _ _ _ ND ltac:(right; lra) ltac:(lra)) as ND2. pose proof (near_half _ _ _ ND2 ltac:(lra)) as BD2.
  pose proof (near_rf _ _ _ ND2 ltac:(right; lra) ltac:(lra)) as ND3.
  eexists _, _. split; [reflexivity|]. split; [apply (f_of_d_R _ _ EDv); apply ok100; lra|].
  eapply near_weak; [exact ND3|lra].
Qed.

Lemma bell_ge i : 0 <= i -> (IZR i <= 2 * r)%R -> (1 / 243 <= bell r (IZR (tdist i)) <= 1)%R.
Proof.
  intros Hi H2. split; [|apply bell_le1; lra]. destruct (tdist_le i Hi H2) as [T1 _].
  unfold bell. apply exp_m5.
  assert (TT : (IZR (tdist i) * IZR (tdist i) <= r * r)%R).
  { rewrite <- (Rabs_pos_eq (IZR (tdist i) * IZR (tdist i))) by apply Rle_0_sqr. rewrite Rabs_mult.
    apply Rmult_le_compat; auto; apply Rabs_pos. }
  assert (0 < r * r)%R by (apply Rmult_lt_0_compat; lra).
  assert (9 * (IZR (tdist i) * IZR (tdist i)) / (2 * (r * r)) <= 9 / 2)%R; [|lra].
  apply Rmult_le_reg_r with (2 * (r * r))%R; [lra|].
  match goal with |- (?x / ?y * ?y <= _)%R => replace (x / y * y)%R with x by (field; lra) end. lra.
Qed.

(** Any element of the kernel can be computed. *)
Lemma kernel_at_ok i : 0 <= i <= 2001 -> exists K, kernel_at e radius i = Ok K.
Proof.
  intros Hi. assert (B : (0 <= IZR i <= 2001)%R) by (split; apply IZR_le; lia).
  pose proof (dsub_R _ _ _ _ (d_of_Z_exact i ltac:(lia)) Hd) as D.
  assert (B2 : (-1000 <= rd (IZR i - r) <= 2001)%R) by (split; [apply (rd_ge_Z _ (-1000))|apply (rd_le_Z _ 2001)]; try lia; lra).
  specialize (D ltac:(apply Rle_trans with (bpow radix2 100); [|apply bpow_le; lia]; pose proof big100; apply Rabs_le; lra)).
  unfold kernel_at. rewrite (to_i32_gen _ _ D) by (apply Rabs_le; lra). cbn [bind].
  assert (T : -1000 <= Ztrunc (rd (IZR i - r)) <= 2001).
  { pose proof (trunc_range (rd (IZR i - r)) (-1000) 2001 ltac:(lia) ltac:(lra) ltac:(lra) ltac:(lia)). lia. }
  rewrite ck32_ok by (unfold INT_MIN, INT_MAX; nia). cbn [bind].
  rewrite ck32_ok by (unfold INT_MIN, INT_MAX; nia). cbn [bind]. eexists. reflexivity.
Qed.

Lemma trunc_pos a : (0 <= a)%R -> Ztrunc a = Zfloor a.
Proof. intros. unfold Ztrunc. rewrite Rlt_bool_false by auto. reflexivity. Qed.

Lemma kernel_size_ok : exists n, to_u32 (dadd (dmul (d_of_Z 2) radius) F.d1) = Ok n /\ 2 * R0 + 1 <= n <= 2001.
Proof.
  pose proof R0_range as RR. pose proof (Zfloor_lb r) as FL.
  pose proof (dmul_R _ _ _ _ (d_of_Z_exact 2 ltac:(lia)) Hd ltac:(apply ok1000; lra)) as E1.
  assert (B1 : (IZR (2 * R0) <= rd (2 * r) <= 2000)%R).
  { split; [apply rd_ge_Z; [rewrite mult_IZR; lra|lia]|apply (rd_le_Z _ 2000); [lra|lia]]. }
  assert (B0 : (0 <= IZR (2 * R0))%R) by (apply IZR_le; lia).
  assert (D1 : isd F.d1 1) by (apply (d_of_Z_exact 1); lia).
  pose proof (dadd_R _ _ _ _ E1 D1 ltac:(apply ok1000; lra)) as E2.
  assert (B2 : (IZR (2 * R0 + 1) <= rd (rd (2 * r) + 1) <= 2001)%R).
  { split; [apply rd_ge_Z; [rewrite plus_IZR; lra|lia]|apply (rd_le_Z _ 2001); [lra|lia]]. }
  rewrite plus_IZR in B2.
  destruct (cast_int_R 0 4294967295 _ _ E2) as [C1 C2]; try lia; try lra.
  exists (Ztrunc (rd (rd (2 * r) + 1))). split; [exact C1|].
  rewrite trunc_pos by lra. split.
  - apply Zfloor_lub. rewrite plus_IZR. lra.
  - apply Z.lt_succ_r. apply lt_IZR. unfold Z.succ. rewrite plus_IZR. pose proof (Zfloor_lb (rd (rd (2 * r) + 1))). lra.
Qed.

Definition kernel_good (S : R) (kb : buf f32) : Prop :=
  forall i, 0 <= i <= 2 * R0 -> exists K kr, load kb i = Ok K /\ isf K kr /\
    near 112 kr (bell r (IZR (tdist i)) * / S) /\ (1 / 243 <= bell r (IZR (tdist i)) <= 1)%R.

Lemma fill_ok n : 2 * R0 + 1 <= n <= 2001 -> exists kb S,
  fill_kernel e radius n (bnew n) = Ok kb /\ (r / 4 <= S <= 2 * r)%R /\ kernel_good S kb.
Proof.
  intros Hn. pose proof R0_range as RR. destruct spi_range as (S & ES & SR).
  destruct (for_inv (fun i (kb : buf f32) => blen kb = n /\ forall j, 0 <= j < i ->
     exists K, kernel_at e radius j = Ok K /\ bget kb j = Some K) 0 n
     (fun i kernel => v <- kernel_at e radius i ;; store kernel i v) (bnew n)) as (kb & E & L & G); try lia.
  - split; [reflexivity|]. intros; lia.
  - intros i kb Hi (L & G). destruct (kernel_at_ok i ltac:(lia)) as (K & EK). rewrite EK. cbn [bind].
    rewrite store_ok by lia. eexists. split; [reflexivity|]. split; [rewrite blen_bset; auto|].
    intros j Hj. destruct (Z.eq_dec j i) as [->|].
    + exists K. split; auto. rewrite bget_bset, Z.eqb_refl. reflexivity.
    + destruct (G j ltac:(lia)) as (K' & E1 & E2). exists K'. split; auto. rewrite bget_bset.
      replace (j =? i) with false by lia. auto.
  - exists kb, S. split; [exact E|]. split; auto. intros i Hi.
    destruct (G i ltac:(lia)) as (K & E1 & E2).
    assert (H2 : (IZR i <= 2 * r)%R).
    { apply Rle_trans with (IZR (2 * R0)); [apply IZR_le; lia|]. rewrite mult_IZR. pose proof (Zfloor_lb r). lra. }
    destruct (kernel_at_near S ES SR i ltac:(lia) H2) as (K' & kr & E3 & E4 & E5).
    rewrite E1 in E3. injection E3 as <-. exists K, kr. split; [apply load_ok; auto; lia|]. split; auto. split; auto.
    apply bell_ge; auto; lia.
Qed.

(** The loop condition of the C code, k <= radius, compares doubles. *)
Lemma loop_condition k : Z.abs k <= 9007199254740992 -> dle (d_of_Z k) radius = (k <=? Btrunc radius).
Proof.
  intros Hk. rewrite (dle_R _ _ _ _ (d_of_Z_exact k Hk) Hd). rewrite (btrunc_R _ _ Hd).
  rewrite trunc_pos by lra.
  destruct (Z.leb_spec k R0).
  - apply Rle_bool_true. pose proof (Zfloor_lb r). apply IZR_le in H. lra.
  - apply Rle_bool_false. apply Rnot_le_lt. intros C. apply Zfloor_lub in C. lia.
Qed.

(** ** Sums *)
Section Acc.
Context (S : R) (kb : buf f32) (HS : (r / 4 <= S <= 2 * r)%R) (HK : kernel_good S kb).
Local Notation C := (/ S)%R.

Lemma C_range : (1 / 2000 <= C <= 4000000000000)%R.
Proof.
  split; [unfold Rdiv; rewrite Rmult_1_l; apply Rinv_le; lra|].
  replace 4000000000000%R with (/ (1 / 4000000000000))%R by (field; lra). apply Rinv_le; lra.
Qed.

Lemma nz_near k a y : near k a y -> (0 <= k <= 10000)%R -> (y = 0 \/ 1 / 1000000000 <= y)%R -> nz a.
Proof.
  intros N Hk Hy. pose proof (near_half _ _ _ N Hk). unfold nz. destruct Hy as [->|Hy]; [left|right]; lra.
Qed.

Definition chan (k : Z) (v : f32) (f : Z -> R) : Prop := exists a, isf v a /\
  near (115 + 101 / 100 * IZR (k + R0)) a (C * total (- R0) (k - 1) f) /\
  (total (- R0) (k - 1) f = 0 \/ 1 / 243 <= total (- R0) (k - 1) f)%R /\
  (total (- R0) (k - 1) f <= 255 * IZR (k + R0))%R.

Lemma chan_0 f : chan (- R0) fzero f.
Proof.
  exists 0%R. split; [apply isf_0|]. rewrite total_empty. replace (- R0 + R0) with 0 by lia.
  rewrite Rmult_0_r. repeat split; try lra.
Qed.

Lemma kR k : - R0 <= k <= R0 -> (0 <= IZR (k + R0) <= 2000)%R /\ IZR (k + 1 + R0) = (IZR (k + R0) + 1)%R.
Proof.
  intros Hk. pose proof R0_range. split; [split; apply IZR_le; lia|].
  rewrite <- plus_IZR. f_equal. lia.
Qed.

Lemma chan_skip k v f : - R0 <= k <= R0 -> f k = 0%R -> chan k v f -> chan (k + 1) v f.
Proof.
  intros Hk Hf (a & E & N & Z & B). destruct (kR k Hk) as [K1 K2]. exists a. split; auto.
  replace (k + 1 - 1) with (k - 1 + 1) by lia. rewrite total_snoc by lia.
  replace (k - 1 + 1) with k by lia. rewrite Hf, Rplus_0_r, K2. split; [eapply near_weak; [exact N|lra]|]. split; auto. lra.
Qed.

Lemma chan_add k v f p pr : - R0 <= k <= R0 -> isf p pr -> near (113 + 101 / 100) pr (C * f k) ->
  (f k = 0 \/ 1 / 243 <= f k)%R -> (f k <= 255)%R -> chan k v f -> chan (k + 1) (fadd v p) f.
Proof.
  intros Hk Ep Np Zp Bp (a & E & N & Z & B). destruct (kR k Hk) as [K1 K2]. pose proof C_range as CR.
  set (T := total (- R0) (k - 1) f) in *.
  assert (T0 : (0 <= T <= 255 * 2000)%R) by lra.
  assert (N2 : near (115 + 101 / 100 * IZR (k + R0)) (a + pr) (C * (T + f k))).
  { rewrite Rmult_plus_distr_l. apply near_add; auto. eapply near_weak; [exact Np|lra]. }
  assert (Y : (0 <= C * (T + f k) <= 4000000000000 * 600000)%R).
  { split; [apply Rmult_le_pos; lra|apply Rmult_le_compat; lra]. }
  assert (Z2 : (T + f k = 0 \/ 1 / 243 <= T + f k)%R) by lra.
  assert (Y2 : (C * (T + f k) = 0 \/ 1 / 1000000000 <= C * (T + f k))%R).
  { destruct Z2 as [->|Z2]; [left; ring|right].
    apply Rle_trans with (1 / 2000 * (1 / 243))%R; [lra|]. apply Rmult_le_compat; lra. }
  pose proof (near_half _ _ _ N2 ltac:(lra)) as H2. pose proof (nz_near _ _ _ N2 ltac:(lra) Y2) as NZ.
  exists (rf (a + pr)). split; [apply fadd_R; auto; apply ok100; lra|].
  replace (k + 1 - 1) with (k - 1 + 1) by lia. rewrite total_snoc by lia.
  replace (k - 1 + 1) with k by lia. fold T. rewrite K2. split.
  - eapply near_weak; [apply near_rf; [exact N2|exact NZ|lra]|lra].
  - split; lra.
Qed.

Lemma chan_data k v f K kr g d : - R0 <= k <= R0 -> isf K kr -> near 112 kr (g * C) -> (1 / 243 <= g <= 1)%R ->
  f k = (g * IZR d)%R -> 0 <= d <= 255 -> chan k v f -> chan (k + 1) (fadd v (fmul (f_of_Z d) K)) f.
Proof.
  intros Hk EK NK G Ef Hd' Hc. pose proof C_range as CR.
  assert (D : (0 <= IZR d <= 255)%R) by (split; apply IZR_le; lia).
  assert (Z : (f k = 0 \/ 1 / 243 <= f k)%R).
  { rewrite Ef. destruct (Z.eq_dec d 0) as [->|]; [left; simpl; lra|right].
    assert (1 <= IZR d)%R by (apply IZR_le; lia). apply Rle_trans with (1 / 243 * 1)%R; [lra|]. apply Rmult_le_compat; lra. }
  assert (U : (0 <= f k <= 255)%R).
  { rewrite Ef. split; [apply Rmult_le_pos; lra|]. apply Rle_trans with (1 * 255)%R; [|lra]. apply Rmult_le_compat; lra. }
  pose proof (near_scale _ (IZR d) _ _ ltac:(lra) NK) as N2.
  replace (IZR d * (g * C))%R with (C * f k)%R in N2 by (rewrite Ef; ring).
  assert (Y : (0 <= C * f k <= 4000000000000 * 255)%R) by (split; [apply Rmult_le_pos; lra|apply Rmult_le_compat; lra]).
  assert (Y2 : (C * f k = 0 \/ 1 / 1000000000 <= C * f k)%R).
  { destruct Z as [->|Z]; [left; ring|right]. apply Rle_trans with (1 / 2000 * (1 / 243))%R; [lra|]. apply Rmult_le_compat; lra. }
  pose proof (near_half _ _ _ N2 ltac:(lra)) as H2. pose proof (nz_near _ _ _ N2 ltac:(lra) Y2) as NZ.
  apply (chan_add k v f (fmul (f_of_Z d) K) (rf (IZR d * kr))); auto; try lra.
  - apply fmul_R; auto; [apply f_of_Z_exact; lia|apply ok100; lra].
  - eapply near_weak; [apply near_rf; [exact N2|exact NZ|lra]|lra].
Qed.

Lemma chan_weight k v f K kr g : - R0 <= k <= R0 -> isf K kr -> near 112 kr (g * C) -> (1 / 243 <= g <= 1)%R ->
  f k = g -> chan k v f -> chan (k + 1) (fadd v K) f.
Proof.
  intros Hk EK NK G Ef Hc. apply (chan_add k v f K kr); auto; try lra.
  rewrite Ef, Rmult_comm. eapply near_weak; [exact NK|lra].
Qed.

(** A quotient of two such sums is the mean, up to rounding down. *)
Lemma chan_mean n x (d : Z -> Z) p w : 0 <= x < n -> (forall i, 0 <= i < n -> 0 <= d i <= 255) ->
  chan (R0 + 1) p (inside n x (fun k => (weight r k * IZR (d (x + k)%Z))%R)) ->
  chan (R0 + 1) w (inside n x (weight r)) ->
  exists v, to_u8_f (fdiv p w) = Ok v /\ 0 <= v <= 255 /\
    (mean r n x (fun i => IZR (d i)) - 9 / 8 <= IZR v <= mean r n x (fun i => IZR (d i)) + 1 / 8)%R.
Proof.
  intros Hx Hdi (a & Ea & Na & Za & Ba) (b & Eb & Nb & Zb & Bb). pose proof C_range as CR. pose proof R0_range as RR.
  replace (R0 + 1 - 1) with R0 in * by lia. replace (R0 + 1 + R0) with (2 * R0 + 1) in * by lia.
  assert (KR : (1 <= IZR (2 * R0 + 1) <= 2001)%R) by (split; apply IZR_le; lia).
  pose proof (wsum_pos r n x ltac:(lra) Hx) as WP.
  assert (ME : (0 <= mean r n x (fun i => IZR (d i)) <= 255)%R).
  { apply mean_bounds; try lra; auto. intros i Hi. pose proof (Hdi i Hi). split; apply IZR_le; lia. }
  set (m := mean r n x (fun i => IZR (d i))) in *.
  set (TP := total (- R0) R0 (inside n x (fun k => (weight r k * IZR (d (x + k)%Z))%R))) in *.
  set (TW := total (- R0) R0 (inside n x (weight r))) in *.
  assert (EM : m = (TP / TW)%R) by reflexivity.
  destruct Zb as [Zb|Zb]; [lra|].
  assert (CW : (0 < C * TW)%R) by (apply Rmult_lt_0_compat; lra).
  assert (EQ : (C * TP / (C * TW) = m)%R) by (rewrite EM; field; lra).
  pose proof (near_div _ _ _ _ _ _ Na Nb CW ltac:(lra) ltac:(lra)) as ND. rewrite EQ in ND.
  pose proof (near_half _ _ _ Nb ltac:(lra)) as HB.
  assert (MZ : (m = 0 \/ 1 / 1000000000 <= m)%R).
  { destruct Za as [Za|Za]; [left; rewrite EM, Za; field; lra|right].
    rewrite EM. apply Rmult_le_reg_r with TW; [lra|]. replace (TP / TW * TW)%R with TP by (field; lra). lra. }
  pose proof (near_half _ _ _ ND ltac:(lra)) as HD. pose proof (nz_near _ _ _ ND ltac:(lra) MZ) as NZ.
  pose proof (near_rf _ _ _ ND NZ ltac:(lra)) as NR.
  assert (b0 : (b <> 0)%R) by lra.
  pose proof (fdiv_R _ _ _ _ Ea Eb b0 ltac:(apply ok100; lra)) as EV.
  assert (VB : (m - 1 / 8 <= rf (a / b) <= m + 1 / 8)%R).
  { assert (NW : near 4300 (rf (a / b)) m) by (eapply near_weak; [exact NR|lra]). destruct NW as (_ & L1 & L2).
    assert (m * (4300 * uf) <= 255 * (4300 * uf))%R by (apply Rmult_le_compat_r; [unfold uf; lra|lra]).
    assert (255 * (4300 * uf) <= 1 / 8)%R by (unfold uf; lra). lra. }
  destruct (to_u8_f_R _ _ EV ltac:(lra)) as [T1 T2].
  eexists. split; [exact T1|]. split; auto.
  destruct (Rle_or_lt 0 (rf (a / b))) as [P|P].
  - rewrite trunc_pos by auto. pose proof (Zfloor_lb (rf (a / b))). pose proof (Zfloor_ub (rf (a / b))). lra.
  - pose proof (near_pos _ _ _ NR ltac:(lra)). lra.
Qed.

Definition sums := (f32 * f32 * f32 * f32)%type.
Definition sel (s : sums) (c : Z) : f32 := let '(r, g, b, _) := s in if c =? 0 then r else if c =? 1 then g else b.
Definition wt (s : sums) : f32 := let '(_, _, _, w) := s in w.
Definition quot (m : res sums) (c : Z) : Z :=
  match m with Ok s => match to_u8_f (fdiv (sel s c) (wt s)) with Ok v => v | _ => 0 end | _ => 0 end.

(** One tap as both passes take it *)
Definition tap (d : Z -> Z -> Z) (n x k : Z) (s : sums) : res sums :=
  if (0 <=? x + k) && (x + k <? n) then
    K <- load kb (k + R0) ;;
    let '(r, g, b, w) := s in
    Ok (fadd r (fmul (f_of_Z (d (x + k)%Z 0)) K), fadd g (fmul (f_of_Z (d (x + k)%Z 1)) K),
        fadd b (fmul (f_of_Z (d (x + k)%Z 2)) K), fadd w K)
  else Ok s.

Lemma for_k_ok n x d body : 0 <= x < n -> (forall i c, 0 <= i < n -> 0 <= c < 3 -> 0 <= d i c <= 255) ->
  (forall k s, - R0 <= k <= R0 -> body k s = tap d n x k s) ->
  exists s, for_k radius body = Ok s /\ forall c, 0 <= c < 3 ->
    to_u8_f (fdiv (sel s c) (wt s)) = Ok (quot (for_k radius body) c) /\
    0 <= quot (for_k radius body) c <= 255 /\
    (mean r n x (fun i => IZR (d i c)) - 9 / 8 <= IZR (quot (for_k radius body) c)
      <= mean r n x (fun i => IZR (d i c)) + 1 / 8)%R.
Proof.
  intros Hx Hdi Hb. pose proof R0_range as RR.
  assert (E0 : for_k radius body = for_ (- R0) (R0 + 1) body (fzero, fzero, fzero, fzero)).
  { unfold for_k. rewrite (to_i32_gen _ _ (dneg_R _ _ Hd)) by (apply Rabs_le; lra). cbn [bind].
    rewrite Ztrunc_opp, (btrunc_R _ _ Hd), trunc_pos by lra. reflexivity. }
  destruct (for_inv (fun k (s : sums) =>
     (forall c, 0 <= c < 3 -> chan k (sel s c) (inside n x (fun k => (weight r k * IZR (d (x + k)%Z c))%R))) /\
     chan k (wt s) (inside n x (weight r))) (- R0) (R0 + 1) body (fzero, fzero, fzero, fzero)) as (s & E & HC & HW); try lia.
  - split; [|apply chan_0]. intros c Hc. cbn [sel]. destruct (c =? 0); [apply chan_0|]. destruct (c =? 1); apply chan_0.
  - intros k s Hk (HC & HW). rewrite Hb by lia. unfold tap.
    destruct ((0 <=? x + k) && (x + k <? n)) eqn:EI.
    + destruct (HK (k + R0) ltac:(lia)) as (K & kr & EK & IK & NK & GK). rewrite EK. cbn [bind].
      destruct s as [[[sr sg] sb] sw]. eexists. split; [reflexivity|]. split.
      * intros c Hc. specialize (HC c Hc). cbn [sel] in *.
        assert (F : inside n x (fun k => (weight r k * IZR (d (x + k)%Z c))%R) k = (bell r (IZR (tdist (k + R0))) * IZR (d (x + k)%Z c))%R).
        { unfold inside. rewrite EI. reflexivity. }
        assert (C3 : c = 0 \/ c = 1 \/ c = 2) by lia. pose proof (Hdi (x + k) c ltac:(lia) Hc) as DD.
        destruct C3 as [C3|[C3|C3]]; subst c; cbn [Z.eqb Pos.eqb] in *;
          apply (chan_data k _ _ K kr _ _ ltac:(lia) IK NK GK F DD HC).
      * cbn [wt] in *. apply (chan_weight k _ _ K kr _ ltac:(lia) IK NK GK); auto.
        unfold inside. rewrite EI. reflexivity.
    + exists s. split; [reflexivity|]. split; [intros c Hc|]; apply chan_skip; auto; try lia; unfold inside; rewrite EI; reflexivity.
  - rewrite E0, E. exists s. split; [reflexivity|]. intros c Hc. unfold quot.
    destruct (chan_mean n x (fun i => d i c) (sel s c) (wt s) Hx (fun i Hi => Hdi i c Hi Hc) (HC c Hc) HW) as (v & E1 & E2 & E3).
    rewrite E1. auto.
Qed.

Lemma put_px_ok w h x y s v out : 0 < w -> 0 < h -> w * h * 4 <= 4294967296 -> 0 <= x < w -> 0 <= y < h ->
  blen out = w * h * 4 -> (forall c, 0 <= c < 3 -> to_u8_f (fdiv (sel s c) (wt s)) = Ok (v c)) ->
  exists b', put_px out w x y s = Ok b' /\ blen b' = w * h * 4 /\
    forall j, bget b' j = if ((y * w + x) * 4 <=? j) && (j <? (y * w + x) * 4 + 4)
      then Some (if j - (y * w + x) * 4 =? 3 then 255 else v (j - (y * w + x) * 4)) else bget out j.
Proof.
  intros H1 H2 H3 Hx Hy Hl Hv. unfold put_px. destruct s as [[[sr sg] sb] sw].
  pose proof (Hv 0 ltac:(lia)) as V0. pose proof (Hv 1 ltac:(lia)) as V1. pose proof (Hv 2 ltac:(lia)) as V2.
  cbn [sel wt Z.eqb Pos.eqb] in V0, V1, V2.
  pose proof (rm_bound w h x y Hx Hy). assert (0 <= y * w) by nia.
  rewrite (u32_small (y * w)) by lia. rewrite (u32_small (y * w + x)) by lia. rewrite (u32_small ((y * w + x) * 4)) by lia.
  cbv zeta. set (p := (y * w + x) * 4) in *. rewrite (u32_small (p + 1)), (u32_small (p + 2)), (u32_small (p + 3)) by lia.
  rewrite V0. cbn [bind]. rewrite store_ok by lia. cbn [bind]. rewrite V1. cbn [bind].
  rewrite store_ok by (rewrite ?blen_bset; lia). cbn [bind]. rewrite V2. cbn [bind]. rewrite store_ok by (rewrite ?blen_bset; lia). cbn [bind].
  rewrite store_ok by (rewrite ?blen_bset; lia). eexists. split; [reflexivity|]. split; [rewrite !blen_bset; exact Hl|].
  intros j. rewrite !bget_bset.
  destruct (Z.eqb_spec j (p + 3)); [subst j; replace ((p <=? p + 3) && (p + 3 <? p + 4)) with true by lia; replace (p + 3 - p) with 3 by lia; reflexivity|].
  destruct (Z.eqb_spec j (p + 2)); [subst j; replace ((p <=? p + 2) && (p + 2 <? p + 4)) with true by lia; replace (p + 2 - p) with 2 by lia; reflexivity|].
  destruct (Z.eqb_spec j (p + 1)); [subst j; replace ((p <=? p + 1) && (p + 1 <? p + 4)) with true by lia; replace (p + 1 - p) with 1 by lia; reflexivity|].
  destruct (Z.eqb_spec j p); [subst j; replace ((p <=? p) && (p <? p + 4)) with true by lia; replace (p - p) with 0 by lia; reflexivity|].
  replace ((p <=? j) && (j <? p + 4)) with false by lia. reflexivity.
Qed.

Lemma add_tap_ok w h b x y k s : w * h * 4 <= 4294967296 -> image (w * h * 4) b -> 0 <= x < w -> 0 <= y < h -> - R0 <= k <= R0 ->
  add_tap b kb radius k ((y * w + x) * 4) s =
    (K <- load kb (k + R0) ;; let '(r, g, bl, wg) := s in
     Ok (fadd r (fmul (f_of_Z (pixv b w 4 x y 0)) K), fadd g (fmul (f_of_Z (pixv b w 4 x y 1)) K),
         fadd bl (fmul (f_of_Z (pixv b w 4 x y 2)) K), fadd wg K)).
Proof.
  intros Hs Hb Hx Hy Hk. pose proof R0_range as RR. pose proof (rm_bound w h x y Hx Hy) as B. unfold add_tap. destruct s as [[[sr sg] sb] sw].
  rewrite (to_i32_gen _ _ Hd) by (apply Rabs_le; lra). cbn [bind]. rewrite trunc_pos by lra.
  rewrite ck32_ok by (unfold INT_MIN, INT_MAX; lia). cbn [bind].
  destruct (load kb (k + R0)) as [K| | |]; try reflexivity. cbn [bind].
  rewrite (u32_small ((y * w + x) * 4 + 1)), (u32_small ((y * w + x) * 4 + 2)) by lia.
  rewrite !(image_load (w * h * 4)) by (auto; lia). cbn [bind]. unfold pixv, pix. rewrite Z.add_0_r. reflexivity.
Qed.

Lemma off_small x k n : 0 <= x < n -> n <= 1073741824 -> -1000 <= k <= 1000 -> s32 (u32 (x + k)) = x + k.
Proof.
  intros. unfold s32, u32, U32. rewrite Zplus_mod_idemp_l. rewrite Z.mod_small by lia. lia.
Qed.

(** What one pass leaves *)
Definition passed (w h : Z) (b' : buf Z) (m : Z -> Z -> Z -> R) : Prop :=
  exact_image (w * h * 4) b' /\
  forall x y, 0 <= x < w -> 0 <= y < h ->
    pix b' w 4 x y 3 = Some 255 /\
    forall c, 0 <= c < 3 -> (m x y c - 9 / 8 <= IZR (pixv b' w 4 x y c) <= m x y c + 1 / 8)%R.

Lemma passed_of w h b' m q : 0 < w -> 0 < h -> blen b' = w * h * 4 ->
  (forall x y c, 0 <= x < w -> 0 <= y < h -> 0 <= c < 4 -> bget b' ((y * w + x) * 4 + c) = Some (if c =? 3 then 255 else q x y c)) ->
  (forall x y c, 0 <= x < w -> 0 <= y < h -> 0 <= c < 3 -> 0 <= q x y c <= 255 /\ (m x y c - 9 / 8 <= IZR (q x y c) <= m x y c + 1 / 8)%R) ->
  passed w h b' m.
Proof.
  intros Hw Hh L V Q. split.
  - split; auto. split; [lia|]. intros i Hi. destruct (px_decomp w h 4 i) as (x & y & c & Hx & Hy & Hc & ->); auto; try lia.
    rewrite V by auto. eexists. split; [reflexivity|]. destruct (Z.eqb_spec c 3); [unfold byte; lia|].
    pose proof (Q x y c Hx Hy ltac:(lia)) as [QQ _]. unfold byte. lia.
  - intros x y Hx Hy. split.
    + unfold pix. rewrite V by lia. reflexivity.
    + intros c Hc. unfold pixv, pix. rewrite V by lia. replace (c =? 3) with false by lia. apply Q; auto.
Qed.

Lemma px_byte w h b x y c : image (w * h * 4) b -> 0 <= x < w -> 0 <= y < h -> 0 <= c < 4 -> 0 <= pixv b w 4 x y c <= 255.
Proof.
  intros [_ I] Hx Hy Hc. pose proof (rm_bound w h x y Hx Hy). unfold pixv, pix. destruct (I ((y * w + x) * 4 + c)) as (v & -> & B); [lia|]. unfold byte in B. lia.
Qed.

Lemma pass_h_ok w h b out : 0 < w -> 0 < h -> w * h * 4 <= 4294967296 -> image (w * h * 4) b -> blen out = w * h * 4 ->
  exists b', pass_h w h (w * h) b kb radius out = Ok b' /\
    passed w h b' (fun x y c => mean r w x (fun x' => IZR (pixv b w 4 x' y c))).
Proof.
  intros Hw Hh Hs Hb Hl. pose proof R0_range as RR. unfold pass_h.
  set (m := fun x y => for_k radius (fun k s => tap_h w (w * h) b kb radius x y k s)).
  assert (T : forall x y, 0 <= x < w -> 0 <= y < h -> exists s, m x y = Ok s /\ forall c, 0 <= c < 3 ->
     to_u8_f (fdiv (sel s c) (wt s)) = Ok (quot (m x y) c) /\ 0 <= quot (m x y) c <= 255 /\
     (mean r w x (fun x' => IZR (pixv b w 4 x' y c)) - 9 / 8 <= IZR (quot (m x y) c) <= mean r w x (fun x' => IZR (pixv b w 4 x' y c)) + 1 / 8)%R).
  { intros x y Hx Hy. apply (for_k_ok w x (fun i c => pixv b w 4 i y c)); auto.
    - intros i c Hi Hc. apply (px_byte w h); auto; lia.
    - intros k s Hk. unfold tap_h, tap. rewrite (off_small x k w) by nia. cbv zeta.
      destruct ((0 <=? x + k) && (x + k <? w)) eqn:EI.
      + assert (Hx2 : 0 <= x + k < w) by lia. pose proof (rm_bound w h (x + k) y Hx2 Hy) as B. assert (0 <= y * w) by nia.
        rewrite (u32_small (x + k)) by nia.
        replace ((x + k <? 0) || (w <=? x + k)) with false by lia.
        rewrite (u32_small (y * w)) by lia. rewrite (u32_small (y * w + (x + k))) by lia.
        rewrite (u32_small ((y * w + (x + k)) * 4)) by lia. rewrite (u32_small ((y * w + (x + k)) * 4 + 2)) by lia.
        rewrite u64_small by lia. replace (w * h * 4 <=? (y * w + (x + k)) * 4 + 2) with false by lia.
        apply (add_tap_ok w h); auto.
      + replace ((x + k <? 0) || (w <=? u32 (x + k))) with true; [reflexivity|].
        symmetry. destruct (Z.ltb_spec (x + k) 0); [reflexivity|]. cbn [orb]. rewrite u32_small by nia. lia. }
  destruct (loop2d_writes (w * h * 4) 4 w h (fun x y => (y * w + x) * 4)
    (fun x y c => Some (if c =? 3 then 255 else quot (m x y) c))
    (fun x y out => s <- m x y ;; put_px out w x y s) out) as (b' & E & L & V & _); try lia.
  - intros x y Hx Hy o Ho. destruct (T x y Hx Hy) as (s & Es & Hq). 
    destruct (put_px_ok w h x y s (quot (m x y)) o) as (b1 & P1 & P2 & P3); auto; [intros c Hc; apply Hq; auto|].
    exists b1. split; [|split; auto]. rewrite Es. exact P1.
  - intros x y x' y' Hx Hy Hx' Hy' D. destruct (rm_lt w x y x' y') as [Q|Q]; auto; lia.
  - exists b'. split; [exact E|]. apply passed_of with (q := fun x y => quot (m x y)); auto.
    intros x y c Hx Hy Hc. destruct (T x y Hx Hy) as (s & _ & Hq). apply Hq; auto.
Qed.

Lemma pass_v_ok w h b out : 0 < w -> 0 < h -> w * h * 4 <= 4294967296 -> image (w * h * 4) b -> blen out = w * h * 4 ->
  exists b', pass_v w h b kb radius out = Ok b' /\
    passed w h b' (fun x y c => mean r h y (fun y' => IZR (pixv b w 4 x y' c))).
Proof.
  intros Hw Hh Hs Hb Hl. pose proof R0_range as RR. unfold pass_v.
  set (m := fun x y => for_k radius (fun k s => tap_v w h b kb radius x y k s)).
  assert (T : forall x y, 0 <= x < w -> 0 <= y < h -> exists s, m x y = Ok s /\ forall c, 0 <= c < 3 ->
     to_u8_f (fdiv (sel s c) (wt s)) = Ok (quot (m x y) c) /\ 0 <= quot (m x y) c <= 255 /\
     (mean r h y (fun y' => IZR (pixv b w 4 x y' c)) - 9 / 8 <= IZR (quot (m x y) c) <= mean r h y (fun y' => IZR (pixv b w 4 x y' c)) + 1 / 8)%R).
  { intros x y Hx Hy. apply (for_k_ok h y (fun i c => pixv b w 4 x i c)); auto.
    - intros i c Hi Hc. apply (px_byte w h); auto; lia.
    - intros k s Hk. unfold tap_v, tap. rewrite (off_small y k h) by nia. cbv zeta.
      destruct ((0 <=? y + k) && (y + k <? h)) eqn:EI.
      + assert (Hy2 : 0 <= y + k < h) by lia. pose proof (rm_bound w h x (y + k) Hx Hy2) as B. assert (0 <= (y + k) * w) by nia.
        rewrite (u32_small (y + k)) by nia.
        replace ((y + k <? 0) || (h <=? y + k)) with false by lia.
        rewrite (u32_small ((y + k) * w)) by lia. rewrite (u32_small ((y + k) * w + x)) by lia.
        rewrite (u32_small (((y + k) * w + x) * 4)) by lia.
        apply (add_tap_ok w h); auto.
      + replace ((y + k <? 0) || (h <=? u32 (y + k))) with true; [reflexivity|].
        symmetry. destruct (Z.ltb_spec (y + k) 0); [reflexivity|]. cbn [orb]. rewrite u32_small by nia. lia. }
  destruct (loop2d_writes (w * h * 4) 4 h w (fun y x => (y * w + x) * 4)
    (fun y x c => Some (if c =? 3 then 255 else quot (m x y) c))
    (fun y x out => s <- m x y ;; put_px out w x y s) out) as (b' & E & L & V & _); try lia.
  - intros y x Hy Hx o Ho. destruct (T x y Hx Hy) as (s & Es & Hq). 
    destruct (put_px_ok w h x y s (quot (m x y)) o) as (b1 & P1 & P2 & P3); auto; [intros c Hc; apply Hq; auto|].
    exists b1. split; [|split; auto]. rewrite Es. exact P1.
  - intros y x y' x' Hy Hx Hy' Hx' D. destruct (rm_lt w x y x' y') as [Q|Q]; auto; lia.
  - exists b'. split; [exact E|]. apply passed_of with (q := fun x y => quot (m x y)); auto.
    intros x y c Hx Hy Hc. destruct (T x y Hx Hy) as (s & _ & Hq). apply Hq; auto.
Qed.

Lemma two_passes w h b b1 b2 : 0 < w -> 0 < h ->
  passed w h b1 (fun x y c => mean r w x (fun x' => IZR (pixv b w 4 x' y c))) ->
  passed w h b2 (fun x y c => mean r h y (fun y' => IZR (pixv b1 w 4 x y' c))) ->
  blurred w h r b b2.
Proof.
  intros Hw Hh (X1 & P1) (X2 & P2). split; [exact X2|]. intros x y Hx Hy.
  destruct (P2 x y Hx Hy) as [A C2]. split; auto. intros c Hc. exists (pixv b2 w 4 x y c). split.
  - unfold pixv, pix. destruct X2 as [_ [_ I]]. pose proof (rm_bound w h x y Hx Hy).
    destruct (I ((y * w + x) * 4 + c) ltac:(lia)) as (v & -> & _). reflexivity.
  - specialize (C2 c Hc). unfold mean2.
    set (m1 := fun y' => mean r w x (fun x' => IZR (pixv b w 4 x' y' c))).
    assert (Q : (mean r h y m1 - 9 / 8 <= mean r h y (fun y' => IZR (pixv b1 w 4 x y' c)) <= mean r h y m1 + 1 / 8)%R).
    { split.
      - replace (mean r h y m1 - 9 / 8)%R with (1 * mean r h y m1 + - (9 / 8))%R by ring. rewrite <- mean_affine by (auto; lra).
        apply mean_le; auto; try lra. intros y' Hy'. destruct (P1 x y' Hx Hy') as [_ B]. specialize (B c Hc). unfold m1. lra.
      - replace (mean r h y m1 + 1 / 8)%R with (1 * mean r h y m1 + 1 / 8)%R by ring. rewrite <- mean_affine by (auto; lra).
        apply mean_le; auto; try lra. intros y' Hy'. destruct (P1 x y' Hx Hy') as [_ B]. specialize (B c Hc). unfold m1. lra. }
    lra.
Qed.
End Acc.
End Kernel.

(** ** Heap *)
Lemma put_flt_ok s i o b : mem s i = Some o ->
  put_obj (Ptr i) (OFlt b) s = Ok (tt, mkst (upd (mem s) i (Some (OFlt b))) (nxt s) (orc s) (tick s)).
Proof. unfold put_obj; intros ->; reflexivity. Qed.
Lemma get_flt_ok s i b : mem s i = Some (OFlt b) -> get_flt (Ptr i) s = Ok (b, s).
Proof. unfold get_flt, bindM, get_obj; intros ->; reflexivity. Qed.

Definition blur_body (e : f64 -> f64) (w h : Z) (radius : f64) (data : ptr) : M ptr :=
  blurred_data <-- malloc_bytes (w * h * 4) ;;
  if is_null blurred_data then ret Null else
  kernel_size <-- lift (to_u32 (dadd (dmul (d_of_Z 2) radius) F.d1)) ;;
  kernel <-- alloc (OFlt (bnew kernel_size)) ;;
  if is_null kernel then (_ <-- free blurred_data ;; ret Null) else
  kb <-- get_flt kernel ;;
  kb <-- lift (fill_kernel e radius kernel_size kb) ;;
  _ <-- put_obj kernel (OFlt kb) ;;
  src <-- get_bytes data ;;
  out <-- get_bytes blurred_data ;;
  out <-- lift (pass_h w h (w * h) src kb radius out) ;;
  _ <-- put_bytes blurred_data out ;;
  temp_data <-- malloc_bytes (w * h * 4) ;;
  if is_null temp_data then (_ <-- free blurred_data ;; _ <-- free kernel ;; ret Null) else
  src <-- get_bytes blurred_data ;;
  dst <-- get_bytes temp_data ;;
  temp <-- lift (bcopy dst 0 src 0 (w * h * 4)) ;;
  _ <-- put_bytes temp_data temp ;;
  out <-- get_bytes blurred_data ;;
  out <-- lift (pass_v w h temp kb radius out) ;;
  _ <-- put_bytes blurred_data out ;;
  _ <-- free temp_data ;;
  _ <-- free kernel ;;
  ret blurred_data.

Lemma blur_guards e w h radius d : 0 < w -> 0 < h -> w * h * 4 <= SIZE_MAX ->
  dlt radius d0 = false -> dfinite radius = true -> deq radius d0 = false -> dlt (d_of_Z 1000) radius = false ->
  apply_gaussian_blur e w h radius (Ptr d) = blur_body e w h radius (Ptr d).
Proof.
  intros Hw Hh HS G1 G2 G3 G4. unfold apply_gaussian_blur. cbn [is_null orb].
  replace (w =? 0) with false by lia. replace (h =? 0) with false by lia. cbn [orb].
  rewrite G1, G2. cbn [orb negb].
  assert (SIZE_MAX / h <? w = false) as ->.
  { unfold SIZE_MAX in *; apply Z.ltb_ge. apply Z.div_le_lower_bound; nia. }
  cbv zeta. rewrite (u64_small (w * h)) by (unfold SIZE_MAX in *; nia).
  replace (SIZE_MAX / 4 <? w * h) with false by (symmetry; apply Z.ltb_ge; apply Z.div_le_lower_bound; lia).
  rewrite u64_small by (unfold SIZE_MAX in *; nia). rewrite G3, G4. reflexivity.
Qed.

Lemma blur_shell e w h radius n kb b b1 t b2 s d : 0 < w -> 0 < h ->
  to_u32 (dadd (dmul (d_of_Z 2) radius) F.d1) = Ok n ->
  fill_kernel e radius n (bnew n) = Ok kb ->
  pass_h w h (w * h) b kb radius (bnew (w * h * 4)) = Ok b1 ->
  bcopy (bnew (w * h * 4)) 0 b1 0 (w * h * 4) = Ok t ->
  pass_v w h t kb radius b1 = Ok b2 ->
  wf s -> mem s d = Some (OBytes b) ->
  returns_fresh s (blur_body e w h radius (Ptr d) s) (fun b' => b' = b2).
Proof.
  intros Hw Hh E1 E2 E3 Et E4 Hwf Hd. pose proof (holds_lt s d _ Hwf Hd) as Ld.
  unfold blur_body, malloc_bytes.
  halloc EA OA; [exact Hwf| |].
  { exists Null. eexists. split; [reflexivity|]. split; [later_tac Hwf|]. split; [mem_same Hwf|].
    exists (tick s). cbn [tick]. split; [lia|auto]. }
  hlift E1.
  halloc EB OB; [wf_tac Hwf| |].
  { hfree. exists Null. eexists. split; [reflexivity|]. split; [later_tac Hwf|]. split; [mem_same Hwf|].
    exists (S (tick s)). cbn [tick]. split; [lia|auto]. }
  erewrite bindM_Ok; [|eapply get_flt_ok; mem_lookup]. cbv beta.
  hlift E2. erewrite bindM_Ok; [|eapply put_flt_ok; mem_lookup]. cbv beta. cbn [mem nxt orc tick].
  hget. hget. hlift E3. hput.
  halloc EC OC; [wf_tac Hwf| |].
  { hfree. hfree. exists Null. eexists. split; [reflexivity|]. split; [later_tac Hwf|]. split; [mem_same Hwf|].
    exists (S (S (tick s))). cbn [tick]. split; [lia|auto]. }
  hget. hget. hlift Et. hput. hget. hlift E4. hput. hfree. hfree.
  eexists (Ptr _). eexists. split; [reflexivity|]. split; [later_tac Hwf|]. split; [apply Hwf; lia|]. split.
  - exists b2. split; [mem_lookup|]. reflexivity.
  - mem_same Hwf.
Qed.

Lemma returns_fresh_weaken s run (P Q : buf Z -> Prop) : (forall b, P b -> Q b) -> returns_fresh s run P -> returns_fresh s run Q.
Proof.
  intros H (p & s' & E & L & R). exists p, s'. split; auto. split; auto. destruct p; auto.
  destruct R as (R1 & (b & R2 & R3) & R4). split; auto. split; auto. exists b. auto.
Qed.

Lemma radius_guards radius r : isd radius r -> (0 < r <= 1000)%R ->
  dlt radius d0 = false /\ dfinite radius = true /\ deq radius d0 = false /\ dlt (d_of_Z 1000) radius = false.
Proof.
  intros Hd Hr. assert (D0 : isd d0 0) by (split; reflexivity).
  split; [rewrite (dlt_R _ _ _ _ Hd D0); apply Rlt_bool_false; lra|]. split; [apply Hd|].
  split; [rewrite (deq_R _ _ _ _ Hd D0); apply Req_bool_false; lra|].
  rewrite (dlt_R _ _ _ _ (d_of_Z_exact 1000 ltac:(lia)) Hd). apply Rlt_bool_false. lra.
Qed.

Definition res_val {A} (x : A) (m : res A) : A := match m with Ok a => a | _ => x end.

Lemma blur_ok e w h radius s p b :
  exp_ok e -> 0 < w -> 0 < h -> w * h * 4 <= 4294967296 ->
  is_finite radius = true -> (1 / 1000000000000 <= B2R radius <= 1000)%R ->
  wf s -> holds s p b -> image (w * h * 4) b ->
  returns_fresh s (apply_gaussian_blur e w h radius p s) (blurred w h (B2R radius) b).
Proof.
  intros He Hw Hh Hs Fr Hr Hwf [d [-> Hm]] Hb.
  set (r := B2R radius) in *. assert (Hd : isd radius r) by (split; auto).
  destruct (radius_guards radius r Hd ltac:(lra)) as (G1 & G2 & G3 & G4).
  rewrite blur_guards by (auto; unfold SIZE_MAX; lia).
  destruct (kernel_size_ok radius r Hd Hr) as (n & E1 & Hn).
  destruct (fill_ok e radius r He Hd Hr n Hn) as (kb & S & E2 & HS & HK).
  destruct (pass_h_ok radius r Hd Hr S kb HS HK w h b (bnew (w * h * 4)) Hw Hh Hs Hb eq_refl) as (b1 & E3 & P1).
  assert (L1 : blen b1 = w * h * 4) by apply P1.
  destruct (bcopy_ok (bnew (w * h * 4)) 0 b1 0 (w * h * 4)) as (t & Et & Lt & Gt); try lia; [cbn [blen bnew]; lia|].
  cbn [blen bnew] in Lt.
  assert (St : same_bytes (w * h * 4) b1 t).
  { intros i Hi. rewrite Gt. replace ((0 <=? i) && (i <? 0 + w * h * 4)) with true by lia. f_equal. lia. }
  assert (It : image (w * h * 4) t).
  { split; [lia|]. intros i Hi. rewrite St by auto. apply P1; auto. }
  destruct (pass_v_ok radius r Hd Hr S kb HS HK w h t b1 Hw Hh Hs It L1) as (b2 & E4 & P2).
  eapply returns_fresh_weaken; [|apply (blur_shell e w h radius n kb b b1 t b2 s d); auto].
  intros b' ->. apply two_passes with (b1 := t); auto.
  destruct P1 as [X1 P1]. split; [split; auto|]. intros x y Hx Hy. destruct (P1 x y Hx Hy) as [A C]. pose proof (rm_bound w h x y Hx Hy).
  split.
  - unfold pix in *. rewrite St by lia. exact A.
  - intros c Hc. unfold pixv, pix. rewrite St by lia. apply C; auto.
Qed.

Lemma blur_range w h r b b' : (0 <= r)%R -> 0 < w -> 0 < h -> blurred w h r b b' ->
  forall c lo hi, 0 <= c < 3 -> (forall x y, 0 <= x < w -> 0 <= y < h -> lo <= pixv b w 4 x y c <= hi) ->
  forall x y, 0 <= x < w -> 0 <= y < h -> exists v, pix b' w 4 x y c = Some v /\ lo - 2 <= v <= hi.
Proof.
  intros Hr Hw Hh [_ H] c lo hi Hc B x y Hx Hy. destruct (H x y Hx Hy) as [_ H']. destruct (H' c Hc) as (v & E & V).
  exists v. split; auto. unfold mean2 in V.
  assert (M : (IZR lo <= mean r h y (fun y' => mean r w x (fun x' => IZR (pixv b w 4 x' y' c))) <= IZR hi)%R).
  { apply mean_bounds; auto. intros y' Hy'. apply mean_bounds; auto. intros x' Hx'. pose proof (B x' y' Hx' Hy'). split; apply IZR_le; lia. }
  split.
  - assert (lo - 3 < v); [|lia]. apply lt_IZR. rewrite minus_IZR. lra.
  - assert (v < hi + 1); [|lia]. apply lt_IZR. rewrite plus_IZR. lra.
Qed.

Lemma blur_zero e w h radius s p b :
  0 < w -> 0 < h -> w * h * 4 <= SIZE_MAX -> is_finite radius = true -> B2R radius = 0%R ->
  wf s -> holds s p b -> image (w * h * 4) b ->
  returns_fresh s (apply_gaussian_blur e w h radius p s) (fun b' => exact_image (w * h * 4) b' /\ same_bytes (w * h * 4) b b').
Proof.
  intros Hw Hh HS Fr Hr Hwf [d [-> Hm]] Hb. assert (Hd : isd radius 0) by (split; auto). assert (D0 : isd d0 0) by (split; reflexivity).
  unfold apply_gaussian_blur. cbn [is_null orb].
  replace (w =? 0) with false by lia. replace (h =? 0) with false by lia. cbn [orb].
  rewrite (dlt_R _ _ _ _ Hd D0). rewrite Rlt_bool_false by lra. replace (dfinite radius) with true by (symmetry; exact Fr). cbn [orb negb].
  assert (SIZE_MAX / h <? w = false) as ->.
  { unfold SIZE_MAX in *; apply Z.ltb_ge. apply Z.div_le_lower_bound; nia. }
  cbv zeta. rewrite (u64_small (w * h)) by (unfold SIZE_MAX in *; nia).
  replace (SIZE_MAX / 4 <? w * h) with false by (symmetry; apply Z.ltb_ge; apply Z.div_le_lower_bound; lia).
  rewrite u64_small by (unfold SIZE_MAX in *; nia). rewrite (deq_R _ _ _ _ Hd D0). rewrite Req_bool_true by reflexivity.
  pose proof (holds_lt s d _ Hwf Hm) as Ld.
  destruct (bcopy_ok (bnew (w * h * 4)) 0 b 0 (w * h * 4)) as (t & Et & Lt & Gt); try lia; [cbn [blen bnew]; lia|destruct Hb; lia|].
  cbn [blen bnew] in Lt.
  assert (Sm : same_bytes (w * h * 4) b t).
  { intros i Hi. rewrite Gt. replace ((0 <=? i) && (i <? 0 + w * h * 4)) with true by lia. f_equal. lia. }
  unfold malloc_bytes. halloc EA OA; [exact Hwf| |].
  { exists Null. eexists. split; [reflexivity|]. split; [later_tac Hwf|]. split; [mem_same Hwf|].
    exists (tick s). cbn [tick]. split; [lia|auto]. }
  hget. hget. hlift Et. hput.
  eexists (Ptr _). eexists. split; [reflexivity|]. split; [later_tac Hwf|]. split; [apply Hwf; lia|]. split.
  - exists t. split; [mem_lookup|]. split; auto. split; auto. split; [lia|]. intros i Hi. rewrite Sm by auto. apply Hb; auto.
  - mem_same Hwf.
Qed.

Lemma blur_rejects e w h radius p s :
  p = Null \/ w = 0 \/ h = 0 \/ dlt radius d0 = true \/ is_finite radius = false \/
  (0 < w /\ 0 < h /\ w * h * 4 <= SIZE_MAX /\ is_finite radius = true /\ (1000 < B2R radius)%R) ->
  apply_gaussian_blur e w h radius p s = Ok (Null, s).
Proof.
  intros H. unfold apply_gaussian_blur.
  destruct (is_null p || (w =? 0) || (h =? 0)) eqn:EG; [reflexivity|].
  destruct (dlt radius d0 || negb (dfinite radius)) eqn:ER; [reflexivity|].
  destruct H as [E|[E|[E|[E|[E|(Hw & Hh & HS & Fr & Hr)]]]]].
  - subst p. discriminate.
  - subst w. rewrite orb_true_r in EG. discriminate.
  - subst h. rewrite orb_true_r in EG. discriminate.
  - rewrite E in ER. discriminate.
  - change (dfinite radius) with (is_finite radius) in ER. rewrite E in ER. rewrite orb_true_r in ER. discriminate.
  - assert (Hd : isd radius (B2R radius)) by (split; auto). assert (D0 : isd d0 0) by (split; reflexivity).
    assert (SIZE_MAX / h <? w = false) as ->.
    { unfold SIZE_MAX in *; apply Z.ltb_ge. apply Z.div_le_lower_bound; nia. }
    cbv zeta. rewrite (u64_small (w * h)) by (unfold SIZE_MAX in *; nia).
    replace (SIZE_MAX / 4 <? w * h) with false by (symmetry; apply Z.ltb_ge; apply Z.div_le_lower_bound; lia).
    rewrite (deq_R _ _ _ _ Hd D0). rewrite Req_bool_false by lra.
    rewrite (dlt_R _ _ _ _ (d_of_Z_exact 1000 ltac:(lia)) Hd). rewrite Rlt_bool_true by lra. reflexivity.
Qed.

(** ** A function that meets the contract of exp *)
Definition dyadic (m ex : Z) : f64 := binary_normalize 53 1024 _ _ mode_NE m ex false.
Lemma dyadic_R m ex : Z.abs m <= 9007199254740992 -> -1074 <= ex <= 0 -> isd (dyadic m ex) (IZR m * bpow radix2 ex).
Proof.
  intros Hm Hex. pose proof (binary_normalize_correct 53 1024 _ _ mode_NE m ex false) as C. cbv zeta in C.
  fold (dyadic m ex) in C.
  assert (VV : F2R (Float radix2 m ex) = (IZR m * bpow radix2 ex)%R) by reflexivity.
  rewrite VV in C. cbv [round_mode] in C. fold (rd (IZR m * bpow radix2 ex)) in C. rewrite rd_dyadic in C by lia.
  rewrite Rlt_bool_true in C.
  - destruct C as (C1 & C2 & _). split; auto.
  - apply Rle_lt_trans with (bpow radix2 53); [|apply bpow_lt; lia].
    rewrite Rabs_mult, (Rabs_pos_eq (bpow _ _)) by apply bpow_ge_0.
    replace (bpow radix2 53) with (bpow radix2 53 * bpow radix2 0)%R by (simpl; ring).
    apply Rmult_le_compat; try apply Rabs_pos; try apply bpow_ge_0; [|apply bpow_le; lia].
    rewrite <- abs_IZR. change (bpow radix2 53) with 9007199254740992%R. apply IZR_le. lia.
Qed.

Definition exp_round (x : f64) : f64 :=
  match x with
  | B754_zero _ => F.d1
  | B754_nan => B754_nan
  | _ => dyadic (Zfloor (exp (B2R x) * 4503599627370496)) (-52)
  end.

Lemma exp_round_ok : exp_ok exp_round.
Proof.
  split; [reflexivity|]. split; [reflexivity|]. intros x Fx Hx.
  assert (G : isd (dyadic (Zfloor (exp (B2R x) * 4503599627370496)) (-52)) (IZR (Zfloor (exp (B2R x) * 4503599627370496)) * bpow radix2 (-52)) /\
    (exp (B2R x) * (1 - 1 / 1099511627776) <= IZR (Zfloor (exp (B2R x) * 4503599627370496)) * bpow radix2 (-52) <= exp (B2R x) * (1 + 1 / 1099511627776))%R).
  { pose proof (exp_m5 (B2R x) ltac:(lra)) as L. assert (U : (exp (B2R x) <= 1)%R) by (rewrite <- exp_0; apply Raux.exp_le; lra).
    set (y := exp (B2R x)) in *. pose proof (Zfloor_lb (y * 4503599627370496)) as F1. pose proof (Zfloor_ub (y * 4503599627370496)) as F2.
    set (m := Zfloor (y * 4503599627370496)) in *.
    assert (0 <= m <= 4503599627370496) by (split; [apply Z.lt_succ_r|]; try apply le_IZR; try apply lt_IZR; unfold Z.succ; rewrite ?plus_IZR; simpl; lra).
    split; [apply dyadic_R; lia|]. change (bpow radix2 (-52)) with (/ 4503599627370496)%R. lra. }
  destruct x as [z|z| |z m ex H]; try discriminate; cbn [exp_round].
  - cbn [B2R] in *. rewrite exp_0. split; [reflexivity|].
    replace (B2R F.d1) with 1%R by (symmetry; apply (d_of_Z_exact 1); lia). lra.
  - destruct G as [[G1 G2] G3]. rewrite G2. auto.
Qed.

(** ** Radius 1/2 *)
Definition half : f64 := dyadic 1 (-1).
Definition kb_half : buf f32 := res_val (bnew 2) (fill_kernel (fun _ => F.d1) half 2 (bnew 2)).

Lemma fill_half e : exp_ok e -> fill_kernel e half 2 (bnew 2) = Ok kb_half.
Proof.
  intros (H0 & _). 
  assert (K : forall i, 0 <= i < 2 -> kernel_at e half i = kernel_at (fun _ => F.d1) half i).
  { intros i Hi. assert (C : i = 0 \/ i = 1) by lia. unfold kernel_at. destruct C as [-> | ->].
    - replace (to_i32 (dsub (d_of_Z 0) half)) with (@Ok Z 0) by (vm_compute; reflexivity). cbn [bind].
      replace (ck32 (0 * 0)) with (@Ok Z 0) by (vm_compute; reflexivity). cbn [bind].
      replace (ck32 (- 0)) with (@Ok Z 0) by (vm_compute; reflexivity). cbn [bind].
      replace (d_of_f (fdiv (f_of_Z 0) (two_sigma_sq half))) with (B754_zero false : f64) by (vm_compute; reflexivity).
      rewrite H0. reflexivity.
    - replace (to_i32 (dsub (d_of_Z 1) half)) with (@Ok Z 0) by (vm_compute; reflexivity). cbn [bind].
      replace (ck32 (0 * 0)) with (@Ok Z 0) by (vm_compute; reflexivity). cbn [bind].
      replace (ck32 (- 0)) with (@Ok Z 0) by (vm_compute; reflexivity). cbn [bind].
      replace (d_of_f (fdiv (f_of_Z 0) (two_sigma_sq half))) with (B754_zero false : f64) by (vm_compute; reflexivity).
      rewrite H0. reflexivity. }
  unfold kb_half, fill_kernel, for_. change (Z.to_nat (2 - 0)) with 2%nat. cbn [iter_n].
  rewrite (K 0) by lia. change (0 + 1) with 1. rewrite (K 1) by lia.
  assert (Hd : isd half (1 / 2)).
  { replace (1 / 2)%R with (IZR 1 * bpow radix2 (-1))%R by (simpl; lra). apply dyadic_R; lia. }
  destruct (kernel_at_ok (fun _ => F.d1) half (1 / 2) Hd ltac:(lra) 0 ltac:(lia)) as (K0 & ->).
  destruct (kernel_at_ok (fun _ => F.d1) half (1 / 2) Hd ltac:(lra) 1 ltac:(lia)) as (K1 & ->).
  reflexivity.
Qed.

Definition white : list Z := [255;255;255;255; 255;255;255;255].

(** White turns gray. *)
Lemma blur_white e : exp_ok e ->
  returns_fresh (st1 white) (apply_gaussian_blur e 2 1 half (Ptr 0) (st1 white))
    (fun b' => to_list b' = map Some [254;254;254;255; 254;254;254;255]).
Proof.
  intros He.
  assert (Hd : isd half (1 / 2)).
  { replace (1 / 2)%R with (IZR 1 * bpow radix2 (-1))%R by (simpl; lra). apply dyadic_R; lia. }
  destruct (radius_guards half (1 / 2) Hd ltac:(lra)) as (G1 & G2 & G3 & G4).
  rewrite blur_guards by (auto; unfold SIZE_MAX; lia).
  set (b1 := res_val (bnew 8) (pass_h 2 1 (2 * 1) (of_list white) kb_half half (bnew (2 * 1 * 4)))).
  set (t := res_val (bnew 8) (bcopy (bnew (2 * 1 * 4)) 0 b1 0 (2 * 1 * 4))).
  set (b2 := res_val (bnew 8) (pass_v 2 1 t kb_half half b1)).
  assert (V : to_list b2 = map Some [254;254;254;255; 254;254;254;255]) by (vm_compute; reflexivity).
  eapply returns_fresh_weaken; [|apply (blur_shell e 2 1 half 2 kb_half (of_list white) b1 t b2 (st1 white) 0); try lia].
  - intros b' ->. exact V.
  - vm_compute. reflexivity.
  - apply fill_half. exact He.
  - unfold b1. destruct (pass_h 2 1 (2 * 1) (of_list white) kb_half half (bnew (2 * 1 * 4))) eqn:E; [reflexivity| | |]; exfalso; clear - E; vm_compute in E; discriminate.
  - unfold t. destruct (bcopy _ _ _ _ _) eqn:E; [reflexivity| | |]; exfalso; clear - E; vm_compute in E; discriminate.
  - unfold b2. destruct (pass_v _ _ _ _ _ _) eqn:E; [reflexivity| | |]; exfalso; clear - E; vm_compute in E; discriminate.
  - apply wf_st1.
  - reflexivity.
Qed.

(** ** Mirrored pictures *)
Lemma rsum_rev n lo f : rsum n lo f = rsum n (- (lo + Z.of_nat n - 1)) (fun k => f (- k)).
Proof.
  revert lo; induction n; intros lo; [reflexivity|].
  change (rsum (S n) lo f) with (f lo + rsum n (lo + 1) f)%R. rewrite IHn. rewrite rsum_snoc.
  replace (- (lo + 1 + Z.of_nat n - 1)) with (- (lo + Z.of_nat (S n) - 1)) by lia.
  cbv beta. replace (- (- (lo + Z.of_nat (S n) - 1) + Z.of_nat n)) with lo by lia. ring.
Qed.
Lemma total_rev m f : 0 <= m -> total (- m) m f = total (- m) m (fun k => f (- k)).
Proof. intros. unfold total. rewrite rsum_rev. f_equal. lia. Qed.

Lemma weight_even m k : weight (IZR m) (- k) = weight (IZR m) k.
Proof.
  unfold weight, distance. rewrite Zfloor_IZR. rewrite <- !minus_IZR, !Ztrunc_IZR.
  replace (- k + m - m) with (- k) by lia. replace (k + m - m) with k by lia. unfold bell. rewrite opp_IZR.
  replace (- IZR k * - IZR k)%R with (IZR k * IZR k)%R by ring. reflexivity.
Qed.

Lemma mean_mirror m n x d : 0 <= m -> mean (IZR m) n (n - 1 - x) (fun i => d (n - 1 - i)) = mean (IZR m) n x d.
Proof.
  intros Hm. unfold mean. rewrite Zfloor_IZR. f_equal; rewrite total_rev by auto; apply total_ext; intros k _; unfold inside.
  - replace ((0 <=? n - 1 - x + - k) && (n - 1 - x + - k <? n)) with ((0 <=? x + k) && (x + k <? n)) by lia.
    destruct ((0 <=? x + k) && (x + k <? n)); auto. rewrite weight_even. do 2 f_equal. lia.
  - replace ((0 <=? n - 1 - x + - k) && (n - 1 - x + - k <? n)) with ((0 <=? x + k) && (x + k <? n)) by lia.
    destruct ((0 <=? x + k) && (x + k <? n)); auto. apply weight_even.
Qed.

Lemma mean_ext r n x d d' : (forall i, 0 <= i < n -> d i = d' i) -> mean r n x d = mean r n x d'.
Proof.
  intros H. unfold mean. f_equal. apply total_ext. intros k _. unfold inside.
  destruct ((0 <=? x + k) && (x + k <? n)) eqn:E; auto. rewrite H by lia. reflexivity.
Qed.

Lemma blur_mirror w h m b b' : 0 <= m -> 0 < w -> 0 < h ->
  (forall x y c, 0 <= x < w -> 0 <= y < h -> 0 <= c < 3 -> pixv b w 4 (w - 1 - x) y c = pixv b w 4 x y c) ->
  blurred w h (IZR m) b b' ->
  forall x y c, 0 <= x < w -> 0 <= y < h -> 0 <= c < 3 ->
    exists v v', pix b' w 4 x y c = Some v /\ pix b' w 4 (w - 1 - x) y c = Some v' /\ Z.abs (v - v') <= 2.
Proof.
  intros Hm Hw Hh Hb [_ H] x y c Hx Hy Hc.
  destruct (H x y Hx Hy) as [_ H1]. destruct (H1 c Hc) as (v & E & V).
  destruct (H (w - 1 - x) y ltac:(lia) Hy) as [_ H2]. destruct (H2 c Hc) as (v' & E' & V').
  exists v, v'. split; auto. split; auto.
  assert (EQ : mean2 (IZR m) w h (w - 1 - x) y (fun x' y' => IZR (pixv b w 4 x' y' c)) =
               mean2 (IZR m) w h x y (fun x' y' => IZR (pixv b w 4 x' y' c))).
  { unfold mean2. apply mean_ext. intros y' Hy'.
    rewrite <- (mean_mirror m w x (fun x' => IZR (pixv b w 4 x' y' c)) Hm). apply mean_ext.
    intros x' Hx'. rewrite Hb by auto. reflexivity. }
  rewrite EQ in V'. assert (Z.abs (v - v') < 3); [|lia]. apply lt_IZR. rewrite abs_IZR, minus_IZR. apply Rabs_lt. lra.
Qed.

(** ... but not with a fractional radius *)
Definition three_halves : f64 := dyadic 3 (-1).
Definition stripe : list Z := [0;0;0;255; 255;255;255;255; 0;0;0;255].

Lemma three_halves_R : isd three_halves (3 / 2).
Proof. replace (3 / 2)%R with (IZR 3 * bpow radix2 (-1))%R by (simpl; lra). apply dyadic_R; lia. Qed.

Lemma blur_lopsided e : exp_ok e ->
  returns_fresh (st1 stripe) (apply_gaussian_blur e 3 1 three_halves (Ptr 0) (st1 stripe))
    (fun b' => exists l r, pix b' 3 4 0 0 0 = Some l /\ pix b' 3 4 2 0 0 = Some r /\ 126 <= l /\ r <= 51).
Proof.
  intros He. destruct three_halves_R as [F1 F2].
  eapply returns_fresh_weaken; [|apply (blur_ok e 3 1 three_halves (st1 stripe) (Ptr 0) (of_list stripe)); auto; try lia; try (rewrite F2; lra)].
  - rewrite F2. intros b' [_ H].
    destruct (H 0 0 ltac:(lia) ltac:(lia)) as [_ H0]. destruct (H0 0 ltac:(lia)) as (l & El & Vl).
    destruct (H 2 0 ltac:(lia) ltac:(lia)) as [_ H2]. destruct (H2 0 ltac:(lia)) as (v & Ev & Vv).
    exists l, v. split; auto. split; auto.
    assert (ZF : Zfloor (3 / 2) = 1) by (apply Zfloor_imp; simpl; lra).
    assert (W0 : weight (3 / 2) 0 = 1%R).
    { unfold weight, distance. rewrite ZF. assert (Ztrunc (IZR (0 + 1) - 3 / 2) = 0) as ->.
      { unfold Ztrunc. rewrite Rlt_bool_true by (simpl; lra). apply Zceil_imp. simpl. lra. }
      unfold bell. replace (- (9 * (0 * 0) / (2 * (3 / 2 * (3 / 2)))))%R with 0%R by field. apply exp_0. }
    assert (W1 : weight (3 / 2) 1 = 1%R).
    { unfold weight, distance. rewrite ZF. assert (Ztrunc (IZR (1 + 1) - 3 / 2) = 0) as ->.
      { unfold Ztrunc. rewrite Rlt_bool_false by (simpl; lra). apply Zfloor_imp. simpl. lra. }
      unfold bell. replace (- (9 * (0 * 0) / (2 * (3 / 2 * (3 / 2)))))%R with 0%R by field. apply exp_0. }
    assert (Wm : weight (3 / 2) (-1) = exp (- (2))).
    { unfold weight, distance. rewrite ZF. assert (Ztrunc (IZR (-1 + 1) - 3 / 2) = -1) as ->.
      { unfold Ztrunc. rewrite Rlt_bool_true by (simpl; lra). apply Zceil_imp. simpl. lra. }
      unfold bell. f_equal. field. }
    assert (E2 : (0 < exp (- (2)) <= 1 / 4)%R).
    { split; [apply exp_pos|]. rewrite exp_Ropp. replace 2%R with (1 + 1)%R by lra. rewrite exp_plus.
      assert (2 <= exp 1)%R by (pose proof (exp_ineq1 1 ltac:(lra)); lra).
      replace (1 / 4)%R with (/ (2 * 2))%R by field. apply Rinv_le; [lra|]. apply Rmult_le_compat; lra. }
    assert (M : forall x, mean2 (3 / 2) 3 1 x 0 (fun x' y' => IZR (pixv (of_list stripe) 3 4 x' y' 0)) =
                mean (3 / 2) 3 x (fun x' => IZR (pixv (of_list stripe) 3 4 x' 0 0))).
    { intros x. unfold mean2. unfold mean at 1. rewrite ZF. unfold total. change (- (1)) with (-1). change (Z.to_nat (1 - -1 + 1)) with 3%nat.
      cbn [rsum]. change (-1 + 1) with 0. change (0 + 1) with 1. unfold inside.
      change ((0 <=? 0 + -1) && (0 + -1 <? 1)) with false. change ((0 <=? 0 + 0) && (0 + 0 <? 1)) with true.
      change ((0 <=? 0 + 1) && (0 + 1 <? 1)) with false. cbv iota. change (0 + 0) with 0. rewrite W0. field. }
    rewrite M in Vl, Vv. clear M. unfold mean in Vl, Vv. rewrite ZF in Vl, Vv. unfold total in Vl, Vv. change (- (1)) with (-1) in Vl, Vv.
    change (Z.to_nat (1 - -1 + 1)) with 3%nat in Vl, Vv. cbn [rsum] in Vl, Vv. unfold inside in Vl, Vv.
    change (-1 + 1) with 0 in Vl, Vv. change (0 + 1) with 1 in Vl, Vv.
    change (2 + -1) with 1 in Vv. change (2 + 0) with 2 in Vv. change (2 + 1) with 3 in Vv.
    change (0 + -1) with (-1) in Vl. change (0 + 0) with 0 in Vl. change (0 + 1) with 1 in Vl.
    cbn [Z.leb Z.compare Z.ltb andb Pos.compare Pos.compare_cont] in Vl, Vv.
    replace (pixv (of_list stripe) 3 4 0 0 0) with 0 in Vl by reflexivity. replace (pixv (of_list stripe) 3 4 1 0 0) with 255 in Vl, Vv by reflexivity.
    replace (pixv (of_list stripe) 3 4 2 0 0) with 0 in Vv by reflexivity.
    rewrite W0 in Vl, Vv. rewrite W1 in Vl. rewrite Wm in Vv.
    set (z := exp (- (2))) in *. split.
    + assert (125 < l); [|lia]. apply lt_IZR. lra.
    + assert (v < 52); [|lia]. apply lt_IZR.
      assert ((z * 255 + (1 * 0 + (0 + 0))) / (z + (1 + (0 + 0))) <= 51)%R.
      { apply Rmult_le_reg_r with (z + (1 + (0 + 0)))%R; [lra|]. unfold Rdiv. rewrite Rmult_assoc, Rinv_l by lra. lra. }
      lra.
  - apply wf_st1.
  - apply holds_st1.
  - apply image_of_list; reflexivity.
Qed.

(** ** Tiny radii *)
Definition tiny : f64 := dyadic 1 (-100).

Lemma for_first_ub {T} n (body : Z -> T -> res T) s u : 0 < n -> body 0 s = UB u -> for_ 0 n body s = UB u.
Proof.
  intros Hn H. unfold for_. replace (Z.to_nat (n - 0)) with (S (Z.to_nat (n - 1))) by lia. cbn [iter_n]. rewrite H. reflexivity.
Qed.

Lemma for_k_tiny body : for_k tiny body = body 0 (fzero, fzero, fzero, fzero).
Proof.
  unfold for_k. replace (to_i32 (dneg tiny)) with (@Ok Z 0) by (vm_compute; reflexivity). cbn [bind].
  replace (Btrunc tiny + 1) with 1 by (vm_compute; reflexivity). unfold for_. change (Z.to_nat (1 - 0)) with 1%nat. cbn [iter_n].
  destruct (body 0 _); reflexivity.
Qed.

Lemma blur_tiny e w h s p b : exp_ok e -> 0 < w -> 0 < h -> w * h * 4 <= 4294967296 ->
  wf s -> holds s p b -> image (w * h * 4) b -> orc s (tick s) = true -> orc s (S (tick s)) = true ->
  apply_gaussian_blur e w h tiny p s = UB BadCast.
Proof.
  intros (_ & Hnan & _) Hw Hh Hs Hwf [d [-> Hm]] Hb O1 O2.
  assert (Hd : isd tiny (1 * bpow radix2 (-100))) by (apply dyadic_R; lia).
  assert (B : (0 < 1 * bpow radix2 (-100) <= 1000)%R).
  { pose proof (bpow_gt_0 radix2 (-100)). pose proof small100. lra. }
  destruct (radius_guards tiny _ Hd B) as (G1 & G2 & G3 & G4).
  rewrite blur_guards by (auto; unfold SIZE_MAX; lia).
  pose proof (holds_lt s d _ Hwf Hm) as Ld.
  assert (E1 : to_u32 (dadd (dmul (d_of_Z 2) tiny) F.d1) = Ok 1) by (vm_compute; reflexivity).
  assert (E2 : fill_kernel e tiny 1 (bnew 1) = Ok (bset (bnew 1) 0 B754_nan)).
  { unfold fill_kernel, for_. change (Z.to_nat (1 - 0)) with 1%nat. cbn [iter_n]. unfold kernel_at.
    replace (to_i32 (dsub (d_of_Z 0) tiny)) with (@Ok Z 0) by (vm_compute; reflexivity). cbn [bind].
    replace (ck32 (0 * 0)) with (@Ok Z 0) by (vm_compute; reflexivity). cbn [bind].
    replace (ck32 (- 0)) with (@Ok Z 0) by (vm_compute; reflexivity). cbn [bind].
    replace (d_of_f (fdiv (f_of_Z 0) (two_sigma_sq tiny))) with (B754_nan : f64) by (vm_compute; reflexivity).
    rewrite Hnan. reflexivity. }
  assert (E3 : pass_h w h (w * h) b (bset (bnew 1) 0 B754_nan) tiny (bnew (w * h * 4)) = UB BadCast).
  { unfold pass_h. apply for_first_ub; [lia|]. apply for_first_ub; [lia|].
    rewrite for_k_tiny. unfold tap_h. change (s32 (u32 (0 + 0))) with 0. cbv zeta.
    change (u32 0) with 0. replace ((0 <? 0) || (w <=? 0)) with false by lia.
    change (u32 (0 * w)) with 0. change (u32 (0 + 0)) with 0. change (u32 (0 * 4)) with 0. change (u32 (0 + 2)) with 2.
    rewrite u64_small by nia. replace (w * h * 4 <=? 2) with false by nia.
    unfold add_tap. replace (to_i32 tiny) with (@Ok Z 0) by (vm_compute; reflexivity). cbn [bind].
    change (ck32 (0 + 0)) with (@Ok Z 0). cbn [bind].
    change (load (bset (bnew 1) 0 (B754_nan : f32)) 0) with (@Ok f32 B754_nan). cbn [bind].
    change (u32 (0 + 1)) with 1. change (u32 (0 + 2)) with 2.
    rewrite !(image_load (w * h * 4)) by (auto; nia). cbn [bind]. unfold put_px.
    assert (N : forall x, fdiv x (fadd fzero B754_nan) = B754_nan) by (intros [| | |]; reflexivity).
    rewrite N. reflexivity. }
  unfold blur_body, malloc_bytes.
  halloc EA OA; [exact Hwf|congruence|].
  hlift E1.
  halloc EB OB; [wf_tac Hwf|congruence|].
  erewrite bindM_Ok; [|eapply get_flt_ok; mem_lookup]. cbv beta.
  hlift E2. erewrite bindM_Ok; [|eapply put_flt_ok; mem_lookup]. cbv beta. cbn [mem nxt orc tick].
  hget. hget. unfold lift, bindM. rewrite E3. reflexivity.
Qed.

Lemma weight_integer m k : weight (IZR m) k = bell (IZR m) (IZR k).
Proof. unfold weight, distance. rewrite Zfloor_IZR, <- minus_IZR, Ztrunc_IZR. do 2 f_equal. lia. Qed.

Lemma blur_in_range e w h radius s p b c lo hi :
  exp_ok e -> 0 < w -> 0 < h -> w * h * 4 <= 4294967296 ->
  is_finite radius = true -> (1 / 1000000000000 <= B2R radius <= 1000)%R ->
  wf s -> holds s p b -> image (w * h * 4) b -> 0 <= c < 3 ->
  (forall x y, 0 <= x < w -> 0 <= y < h -> lo <= pixv b w 4 x y c <= hi) ->
  returns_fresh s (apply_gaussian_blur e w h radius p s) (fun b' =>
    forall x y, 0 <= x < w -> 0 <= y < h -> exists v, pix b' w 4 x y c = Some v /\ lo - 2 <= v <= hi).
Proof.
  intros He Hw Hh Hs Fr Hr Hwf Hp Hb Hc B. eapply returns_fresh_weaken; [|apply blur_ok; eauto].
  intros b' H. apply (blur_range w h (B2R radius) b b'); auto. lra.
Qed.

Lemma blur_constant e w h radius s p b (col : Z -> Z) :
  exp_ok e -> 0 < w -> 0 < h -> w * h * 4 <= 4294967296 ->
  is_finite radius = true -> (1 / 1000000000000 <= B2R radius <= 1000)%R ->
  wf s -> holds s p b -> image (w * h * 4) b ->
  (forall x y c, 0 <= x < w -> 0 <= y < h -> 0 <= c < 3 -> pix b w 4 x y c = Some (col c)) ->
  returns_fresh s (apply_gaussian_blur e w h radius p s) (fun b' =>
    forall x y c, 0 <= x < w -> 0 <= y < h -> 0 <= c < 3 -> exists v, pix b' w 4 x y c = Some v /\ col c - 2 <= v <= col c).
Proof.
  intros He Hw Hh Hs Fr Hr Hwf Hp Hb B. eapply returns_fresh_weaken; [|apply blur_ok; eauto].
  intros b' H x y c Hx Hy Hc. apply (blur_range w h (B2R radius) b b'); auto; [lra|].
  intros x' y' Hx' Hy'. unfold pixv. rewrite B by auto. lia.
Qed.

Lemma blur_mirrored e w h radius m s p b :
  exp_ok e -> 0 < w -> 0 < h -> w * h * 4 <= 4294967296 ->
  is_finite radius = true -> B2R radius = IZR m -> 1 <= m <= 1000 ->
  wf s -> holds s p b -> image (w * h * 4) b ->
  (forall x y c, 0 <= x < w -> 0 <= y < h -> 0 <= c < 3 -> pix b w 4 (w - 1 - x) y c = pix b w 4 x y c) ->
  returns_fresh s (apply_gaussian_blur e w h radius p s) (fun b' =>
    forall x y c, 0 <= x < w -> 0 <= y < h -> 0 <= c < 3 ->
      exists v v', pix b' w 4 x y c = Some v /\ pix b' w 4 (w - 1 - x) y c = Some v' /\ Z.abs (v - v') <= 2).
Proof.
  intros He Hw Hh Hs Fr Hr Hm Hwf Hp Hb B. assert (R : (1 <= IZR m <= 1000)%R) by (split; apply IZR_le; lia).
  eapply returns_fresh_weaken; [|apply (blur_ok e w h radius s p b); auto; rewrite Hr; lra].
  intros b' H. rewrite Hr in H. apply (blur_mirror w h m b b'); auto; [lia|].
  intros x y c Hx Hy Hc. unfold pixv. rewrite B by auto. reflexivity.
Qed.

Lemma blur_white_gray : exists radius l w h, 0 < w /\ 0 < h /\ l = repeat 255 (Z.to_nat (w * h * 4)) /\
  is_finite radius = true /\
  forall e, exp_ok e -> returns_fresh (st1 l) (apply_gaussian_blur e w h radius (Ptr 0) (st1 l)) (fun b' =>
    pix b' w 4 0 0 0 = Some 254).
Proof.
  exists half, white, 2, 1. split; [lia|]. split; [lia|]. split; [reflexivity|]. split; [reflexivity|].
  intros e He. eapply returns_fresh_weaken; [|apply blur_white; exact He].
  intros b' H. unfold pix. unfold to_list in H. 
  destruct (Z.to_nat (blen b')) as [|n] eqn:E; cbn [seq map] in H; [discriminate|]. injection H as H _.
  exact H.
Qed.

Lemma blur_tiny_ub : exists radius, is_finite radius = true /\ dlt d0 radius = true /\
  forall e w h s p b, exp_ok e -> 0 < w -> 0 < h -> w * h * 4 <= 4294967296 ->
    wf s -> holds s p b -> image (w * h * 4) b -> orc s (tick s) = true -> orc s (S (tick s)) = true ->
    apply_gaussian_blur e w h radius p s = UB BadCast.
Proof.
  exists tiny. split; [vm_compute; reflexivity|]. split; [vm_compute; reflexivity|]. exact blur_tiny.
Qed.
