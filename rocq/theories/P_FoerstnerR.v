(** * P_FoerstnerR: rounding errors of the Foerstner measures *)
From Coq Require Import Reals Lra Psatz.
From Flocq Require Import Core Relative.
From Verif Require Import Base BaseLemmas F FLemmas FErr M_Foerstner.
Local Open Scope R_scope.

Definition u : R := 1 / 4503599627370496.
Definition eta : R := 1 / 1000000000000000000000000000000000000000000000000000000000000.
Lemma eta_bpow : bpow radix2 (-1053) <= eta.
Proof.
  apply Rle_trans with (bpow radix2 (-200)); [apply bpow_le; lia|]. unfold eta. cbn. lra.
Qed.
Lemma eta_pos : 0 < eta. Proof. unfold eta. lra. Qed.

(** A rounding error is relative, up to underflow. *)
Lemma rd_gen x : Rabs (rd x - x) <= u * Rabs x + eta.
Proof.
  pose proof eta_pos as P. pose proof (Rabs_pos x) as Px. assert (0 < u) by (unfold u; lra).
  destruct (Rle_or_lt (Rabs x) (bpow radix2 (-1000))) as [S|L].
  - pose proof (rd_err x (-1000) ltac:(lia) S) as E. change (-1000 - 53)%Z with (-1053)%Z in E.
    pose proof eta_bpow. nra.
  - pose proof (relative_error_N_FLT radix2 (-1074) 53 prec64 (fun t => negb (Z.even t)) x) as E.
    assert (E' : Rabs (rd x - x) <= u * Rabs x).
    { eapply Rle_trans; [apply E|].
      - apply Rle_trans with (bpow radix2 (-1000)); [apply bpow_le; lia|lra].
      - apply Rmult_le_compat_r; auto. change (bpow radix2 (- (53) + 1)) with (/ 4503599627370496). unfold u. lra. }
    lra.
Qed.

(** ... relative to a number T that is not tiny *)
Definition nt (T : R) : Prop := 1 / 10000000000 <= T.
Lemma eta_T T : nt T -> eta <= u * T /\ eta <= u * (T * T) /\ eta <= u.
Proof.
  unfold nt. intros H. unfold eta, u.
  assert (1 / 10000000000 * (1 / 10000000000) <= T * T) by (apply Rmult_le_compat; lra). repeat split; lra.
Qed.

Definition within (e : R) (x y : R) : Prop := Rabs (x - y) <= e.

Lemma rd_T T k j x X : 0 < T -> eta <= u * T -> within (k * (u * T)) x X -> Rabs x <= j * T ->
  within ((k + j + 1) * (u * T)) (rd x) X.
Proof.
  intros HT He H Hx. unfold within in *. pose proof (rd_gen x) as G.
  replace (rd x - X) with ((rd x - x) + (x - X)) by ring. eapply Rle_trans; [apply Rabs_triang|].
  assert (u * Rabs x <= u * (j * T)) by (apply Rmult_le_compat_l; [unfold u; lra|auto]). lra.
Qed.

Lemma within_abs e x X b : within e x X -> Rabs X <= b -> Rabs x <= b + e.
Proof.
  unfold within. intros H HX. replace x with ((x - X) + X) by ring. eapply Rle_trans; [apply Rabs_triang|]. lra.
Qed.
Lemma within_plus e f x X y Y : within e x X -> within f y Y -> within (e + f) (x + y) (X + Y).
Proof.
  unfold within. intros. replace (x + y - (X + Y)) with ((x - X) + (y - Y)) by ring.
  eapply Rle_trans; [apply Rabs_triang|]. lra.
Qed.
Lemma within_minus e f x X y Y : within e x X -> within f y Y -> within (e + f) (x - y) (X - Y).
Proof.
  unfold within. intros. replace (x - y - (X - Y)) with ((x - X) - (y - Y)) by ring.
  unfold Rminus at 1. eapply Rle_trans; [apply Rabs_triang|]. rewrite Rabs_Ropp. lra.
Qed.
Lemma within_weak e f x y : within e x y -> e <= f -> within f x y.
Proof. unfold within. lra. Qed.

Lemma within_mul T k x X y Y : 0 < T -> 0 <= k <= 100 -> within (k * (u * T)) x X -> within (k * (u * T)) y Y ->
  Rabs X <= T -> Rabs Y <= T -> within ((2 * k + 1) * (u * (T * T))) (x * y) (X * Y) /\ Rabs (x * y) <= 2 * (T * T).
Proof.
  intros HT Hk Hx Hy BX BY.
  pose proof (within_abs _ _ _ _ Hx BX) as Bx. pose proof (within_abs _ _ _ _ Hy BY) as By.
  assert (KU : k * (u * T) <= 1 / 1000 * T).
  { assert (k * u <= 1 / 1000) by (unfold u; lra). replace (k * (u * T)) with (k * u * T) by ring.
    apply Rmult_le_compat_r; lra. }
  assert (Px := Rabs_pos x). assert (Py := Rabs_pos y). assert (PX := Rabs_pos X).
  split.
  - unfold within in *. replace (x * y - X * Y) with ((x - X) * y + X * (y - Y)) by ring.
    eapply Rle_trans; [apply Rabs_triang|]. rewrite !Rabs_mult.
    assert (H1 : Rabs (x - X) * Rabs y <= (k * (u * T)) * (T + k * (u * T))) by (apply Rmult_le_compat; auto; apply Rabs_pos).
    assert (H2 : Rabs X * Rabs (y - Y) <= T * (k * (u * T))) by (apply Rmult_le_compat; auto; apply Rabs_pos).
    assert (H3 : k * (u * T) * (k * (u * T)) <= u * (T * T)).
    { replace (k * (u * T) * (k * (u * T))) with (k * k * u * (u * (T * T))) by ring.
      assert (0 <= u * (T * T)) by (unfold u; nra). assert (k * k <= 10000) by nra.
      assert (k * k * u <= 1) by (unfold u; lra). nra. }
    lra.
  - rewrite Rabs_mult. apply Rle_trans with ((T + 1 / 1000 * T) * (T + 1 / 1000 * T)); [apply Rmult_le_compat; lra|nra].
Qed.

(** A quotient n / m near N / M, M being T or T * T *)
Lemma within_div S i j c n N m M : 0 < M -> 0 < S -> 0 <= i <= 1000 -> 0 <= j <= 1000 -> 0 <= c <= 4 ->
  within (i * (u * (S * M))) n N -> within (j * (u * M)) m M -> Rabs N <= c * (S * M) ->
  0 < m /\ within ((i + c * j) * (10 / 9) * (u * S)) (n / m) (N / M).
Proof.
  intros HM HS Hi Hj Hc Hn Hm BN.
  assert (JU : j * (u * M) <= 1 / 10 * M).
  { assert (j * u <= 1 / 10) by (unfold u; lra). replace (j * (u * M)) with (j * u * M) by ring.
    apply Rmult_le_compat_r; lra. }
  assert (Pm : 9 / 10 * M <= m) by (unfold within in Hm; apply Rabs_le_inv in Hm; lra).
  split; [lra|]. unfold within in *.
  replace (n / m - N / M) with (((n - N) * M - N * (m - M)) * / (m * M)) by (field; lra).
  rewrite Rabs_mult. rewrite (Rabs_pos_eq (/ (m * M))) by (apply Rlt_le, Rinv_0_lt_compat; nra).
  assert (B : Rabs ((n - N) * M - N * (m - M)) <= (i + c * j) * u * S * M * M).
  { unfold Rminus at 1. eapply Rle_trans; [apply Rabs_triang|]. rewrite Rabs_Ropp, !Rabs_mult, (Rabs_pos_eq M) by lra.
    assert (H1 : Rabs (n - N) * M <= i * (u * (S * M)) * M) by (apply Rmult_le_compat_r; lra).
    assert (H2 : Rabs N * Rabs (m - M) <= c * (S * M) * (j * (u * M))) by (apply Rmult_le_compat; auto; apply Rabs_pos).
    lra. }
  assert (I : / (m * M) <= / (9 / 10 * M * M)).
  { apply Rinv_le; nra. }
  eapply Rle_trans; [apply Rmult_le_compat; [apply Rabs_pos|apply Rlt_le, Rinv_0_lt_compat; nra|exact B|exact I]|].
  right. field. lra.
Qed.

Section Measures.
Context (A B C : R).
Let T := A + C.
Let D := A * C - B * B.
Hypothesis (HA : 0 <= A) (HC : 0 <= C) (HB : B * B <= A * C) (HT : nt T).

Lemma T_pos : 0 < T. Proof. unfold nt in HT. lra. Qed.
Lemma ABC_T : Rabs A <= T /\ Rabs B <= T /\ Rabs C <= T.
Proof.
  rewrite !(Rabs_pos_eq A), !(Rabs_pos_eq C) by lra. unfold T. repeat split; try lra.
  apply Rabs_le. assert (B * B <= (A + C) * (A + C)) by nra. split; nra.
Qed.
Lemma D_T : 0 <= D /\ Rabs D <= 1 * (T * T).
Proof.
  assert (0 <= D) by (unfold D; lra). split; auto. rewrite Rabs_pos_eq by auto. unfold D, T. nra.
Qed.

Let t := rd (rd A + rd C).
Let d := rd (rd (rd A * rd C) - rd (rd B * rd B)).

Lemma near_ABC : within (2 * (u * T)) (rd A) A /\ within (2 * (u * T)) (rd B) B /\ within (2 * (u * T)) (rd C) C.
Proof.
  pose proof T_pos. destruct (eta_T T HT) as (E & _). destruct ABC_T as (a1 & a2 & a3).
  assert (R : forall X, Rabs X <= T -> within (2 * (u * T)) (rd X) X).
  { intros X HX. eapply within_weak; [apply (rd_T T 0 1 X X); auto|lra].
    - unfold within. rewrite Rminus_diag_eq, Rabs_R0 by auto. lra.
    - lra. }
  auto.
Qed.

Lemma near_t : within (8 * (u * T)) t T.
Proof.
  pose proof T_pos. destruct (eta_T T HT) as (E & _). destruct near_ABC as (a & _ & c).
  pose proof (within_plus _ _ _ _ _ _ a c) as S. fold T in S.
  assert (U : u * T <= 1 / 1000 * T) by (apply Rmult_le_compat_r; [lra|unfold u; lra]).
  eapply within_weak; [apply (rd_T T 4 2 (rd A + rd C) T); auto|unfold u; lra].
  - eapply within_weak; [exact S|lra].
  - eapply Rle_trans; [eapply within_abs; [exact S|apply Req_le, Rabs_pos_eq; lra]|]. lra.
Qed.

Lemma near_d : within (22 * (u * (T * T))) d D.
Proof.
  pose proof T_pos as HT0. pose proof eta_pos as PE. destruct (eta_T T HT) as (_ & E & _). destruct near_ABC as (a & b & c).
  destruct ABC_T as (a1 & a2 & a3).
  destruct (within_mul T 2 _ _ _ _ HT0 ltac:(lra) a c a1 a3) as [P1 P2].
  destruct (within_mul T 2 _ _ _ _ HT0 ltac:(lra) b b a2 a2) as [R1 R2].
  assert (TT : 0 < T * T) by nra.
  pose proof (rd_T (T * T) (2 * 2 + 1) 2 _ _ TT E P1 P2) as Q1.
  pose proof (rd_T (T * T) (2 * 2 + 1) 2 _ _ TT E R1 R2) as Q2.
  pose proof (within_minus _ _ _ _ _ _ Q1 Q2) as S. fold D in S.
  assert (U : u * (T * T) <= 1 / 1000 * (T * T)) by (apply Rmult_le_compat_r; [lra|unfold u; lra]).
  destruct D_T as [_ DT].
  eapply within_weak; [apply (rd_T (T * T) 16 2 _ D); auto|lra].
  - eapply within_weak; [exact S|lra].
  - eapply Rle_trans; [eapply within_abs; [exact S|exact DT]|]. lra.
Qed.

Lemma near_w : within (40 * (u * T)) (rd (d / t)) (D / T) /\ 0 < t.
Proof.
  pose proof T_pos as HT0. pose proof eta_pos as PE. destruct (eta_T T HT) as (E & _). destruct D_T as [_ DT].
  destruct (within_div T 22 8 1 d D t T) as [Pt W]; auto; try lra.
  - exact near_d. - exact near_t.
  - split; auto. 
    assert (U : u * T <= 1 / 1000 * T) by (apply Rmult_le_compat_r; [lra|unfold u; lra]).
    eapply within_weak; [apply (rd_T T 34 2 _ (D / T)); auto|unfold u; lra].
    + eapply within_weak; [exact W|unfold u; lra].
    + eapply Rle_trans; [apply within_abs with (1 := W) (b := T)|].
      * unfold Rdiv. rewrite Rabs_mult. rewrite (Rabs_pos_eq (/ T)) by (apply Rlt_le, Rinv_0_lt_compat; lra).
        apply Rmult_le_reg_r with T; [lra|]. rewrite Rmult_assoc, Rinv_l, Rmult_1_r by lra.
        lra.
      * lra.
Qed.

Lemma near_q : within (1000 * u) (rd (rd (4 * d) / rd (t * t))) (4 * D / (T * T)) /\ 0 < rd (t * t).
Proof.
  pose proof T_pos as HT0. pose proof eta_pos as PE. destruct (eta_T T HT) as (_ & E & E'). destruct D_T as [_ DT].
  assert (TT : 0 < T * T) by nra.
  assert (U : u * (T * T) <= 1 / 10000 * (T * T)) by (apply Rmult_le_compat_r; [lra|unfold u; lra]).
  assert (N0 : within (88 * (u * (T * T))) (4 * d) (4 * D)).
  { pose proof near_d as Nd. unfold within in *. rewrite <- Rmult_minus_distr_l, Rabs_mult, Rabs_pos_eq by lra. lra. }
  assert (DT4 : Rabs (4 * D) <= 4 * (T * T)) by (rewrite Rabs_mult, (Rabs_pos_eq 4) by lra; lra).
  assert (N1 : within (94 * (u * (T * T))) (rd (4 * d)) (4 * D)).
  { eapply within_weak; [apply (rd_T (T * T) 88 5 _ (4 * D)); auto|lra].
    eapply Rle_trans; [eapply within_abs; [exact N0|exact DT4]|]. lra. }
  destruct (within_mul T 8 t T t T HT0 ltac:(lra) near_t near_t) as [M1 M2];
    try (rewrite Rabs_pos_eq; lra).
  assert (M3 : within (20 * (u * (T * T))) (rd (t * t)) (T * T)).
  { eapply within_weak; [apply (rd_T (T * T) 17 2 _ (T * T)); auto|lra]. eapply within_weak; [exact M1|lra]. }
  destruct (within_div 1 94 20 4 (rd (4 * d)) (4 * D) (rd (t * t)) (T * T)) as [Pt W]; auto; try lra.
  - eapply within_weak; [exact N1|]. lra.
  - split; auto. set (z := rd (4 * d) / rd (t * t)) in *.
    assert (Q : Rabs (4 * D / (T * T)) <= 4).
    { unfold Rdiv. rewrite Rabs_mult. rewrite (Rabs_pos_eq (/ (T * T))) by (apply Rlt_le, Rinv_0_lt_compat; lra).
      apply Rmult_le_reg_r with (T * T); [lra|]. rewrite Rmult_assoc, Rinv_l, Rmult_1_r by lra. exact DT4. }
    eapply within_weak; [apply (rd_T 1 200 5 z); [lra|lra| |]|lra].
    + eapply within_weak; [exact W|unfold u; lra].
    + eapply Rle_trans; [eapply within_abs; [exact W|exact Q]|]. unfold u. lra.
Qed.
End Measures.

(** ** The measures as computed *)
Lemma rd_abs x n : Rabs x <= IZR n -> (n <= 9007199254740992)%Z -> Rabs (rd x) <= IZR n.
Proof.
  intros H Hn. apply Rabs_le_inv in H. destruct H as [H1 H2].
  assert (0 <= n)%Z by (apply le_IZR; lra).
  apply Rabs_le. split.
  - rewrite <- opp_IZR. apply rd_ge_Z; [rewrite opp_IZR; lra|lia].
  - apply rd_le_Z; [lra|lia].
Qed.

Lemma fmax0_R v x : isd v x -> isd (fmax0 v) (Rmax 0 x).
Proof.
  intros V. unfold fmax0. rewrite (dlt_R _ _ _ _ isd_d0 V). destruct (Rlt_bool_spec 0 x).
  - rewrite Rmax_right by lra. auto.
  - rewrite Rmax_left by lra. apply isd_d0.
Qed.

Definition thr : R := rd (1 / 10000000000).
Lemma thr_R : isd (lit 1 10000000000) thr.
Proof.
  unfold lit, thr. change 1 with (IZR 1). change 10000000000 with (IZR 10000000000). 
  apply ddiv_R; try (apply d_of_Z_exact; lia); [lra|].
  apply abs_big with 1%Z; [|lia]. rewrite Rabs_pos_eq; lra.
Qed.
Lemma thr_lo : bpow radix2 (-34) <= thr.
Proof.
  unfold thr. rewrite <- (Rmult_1_l (bpow radix2 (-34))). change 1 with (IZR 1) at 1.
  rewrite <- (rd_dyadic 1 (-34)) by lia. apply rd_mono. cbn. lra.
Qed.
Lemma thr_hi : thr <= 11 / 100000000000.
Proof.
  unfold thr. pose proof (rd_gen (1 / 10000000000)) as G. apply Rabs_le_inv in G.
  rewrite Rabs_pos_eq in G by lra. unfold u, eta in G. lra.
Qed.

Lemma big_div x y n : Rabs x <= IZR n -> (0 <= n <= 2 ^ 50)%Z -> bpow radix2 (-68) <= Rabs y -> Rabs (x / y) <= bpow radix2 120.
Proof.
  intros Hx Hn Hy. assert (0 < bpow radix2 (-68)) by apply bpow_gt_0.
  unfold Rdiv. rewrite Rabs_mult, Rabs_inv.
  apply Rle_trans with (bpow radix2 50 * bpow radix2 68).
  - apply Rmult_le_compat; [apply Rabs_pos|apply Rlt_le, Rinv_0_lt_compat; lra| |].
    + eapply Rle_trans; [exact Hx|]. rewrite <- IZR_Zpower by lia. apply IZR_le. change (Zpower radix2 50) with (2 ^ 50)%Z. lia.
    + replace (bpow radix2 68) with (/ bpow radix2 (-68)) by (rewrite <- bpow_opp; reflexivity). apply Rinv_le; auto.
  - rewrite <- bpow_plus. apply bpow_le. lia.
Qed.

Lemma up1000 : bpow radix2 120 <= bpow radix2 1000. Proof. apply bpow_le. lia. Qed.
Lemma max120 x : Rabs x <= bpow radix2 120 -> 0 <= Rmax 0 (rd x) <= bpow radix2 120.
Proof.
  intros H. split; [apply Rmax_l|]. apply Rmax_lub; [apply bpow_ge_0|].
  apply Rabs_le_inv in H. replace (bpow radix2 120) with (rd (bpow radix2 120)).
  - apply rd_mono. lra.
  - apply gr_format. apply format_bpow; try exact prec64; lia.
Qed.

Lemma measures_R xx xy yy a b c :
  isd xx a -> isd xy b -> isd yy c -> Rabs a <= 20000 -> Rabs b <= 20000 -> Rabs c <= 20000 ->
  exists W Q, isd (fst (measures xx xy yy)) W /\ isd (snd (measures xx xy yy)) Q /\ 0 <= W <= bpow radix2 120 /\ 0 <= Q <= bpow radix2 120 /\
    let t := rd (a + c) in let d := rd (rd (a * c) - rd (b * b)) in
    (Rabs t <= thr -> W = 0 /\ Q = 0) /\
    (thr < Rabs t -> W = Rmax 0 (rd (d / t)) /\ Q = Rmax 0 (rd (rd (4 * d) / rd (t * t)))).
Proof.
  intros Ia Ib Ic Ba Bb Bc. unfold measures.
  assert (Pr : forall x y, Rabs x <= 20000 -> Rabs y <= 20000 -> Rabs (x * y) <= IZR 400000000).
  { intros x y Hx Hy. rewrite Rabs_mult. replace (IZR 400000000) with (20000 * 20000) by lra.
    apply Rmult_le_compat; auto; apply Rabs_pos. }
  assert (Sm : forall x y n, Rabs x <= IZR n -> Rabs y <= IZR n -> Rabs (x + y) <= IZR (2 * n)).
  { intros x y n Hx Hy. rewrite mult_IZR. eapply Rle_trans; [apply Rabs_triang|]. lra. }
  assert (Sd : forall x y n, Rabs x <= IZR n -> Rabs y <= IZR n -> Rabs (x - y) <= IZR (2 * n)).
  { intros x y n Hx Hy. apply Sm; auto. now rewrite Rabs_Ropp. }
  pose proof (Pr a c Ba Bc) as Bac. pose proof (Pr b b Bb Bb) as Bbb.
  pose proof (dmul_R _ _ _ _ Ia Ic ltac:(eapply abs_big; [exact Bac|lia])) as Mac.
  pose proof (dmul_R _ _ _ _ Ib Ib ltac:(eapply abs_big; [exact Bbb|lia])) as Mbb.
  pose proof (Sd _ _ _ (rd_abs _ _ Bac ltac:(lia)) (rd_abs _ _ Bbb ltac:(lia))) as Bd.
  pose proof (dsub_R _ _ _ _ Mac Mbb ltac:(eapply abs_big; [exact Bd|lia])) as Md.
  pose proof (Sm _ _ _ Ba Bc) as Bt.
  pose proof (dadd_R _ _ _ _ Ia Ic ltac:(eapply abs_big; [exact Bt|lia])) as Mt.
  pose proof (rd_abs _ _ Bd ltac:(lia)) as Bd'. pose proof (rd_abs _ _ Bt ltac:(lia)) as Bt'.
  rewrite (dlt_R _ _ _ _ thr_R (dabs_R _ _ Mt)).
  set (t := rd (a + c)) in *. set (d := rd (rd (a * c) - rd (b * b))) in *.
  destruct (Rlt_bool_spec thr (Rabs t)) as [L|L]; cbn [fst snd].
  - pose proof thr_lo as TL. assert (P34 : 0 < bpow radix2 (-34)) by apply bpow_gt_0.
    assert (Nt : t <> 0). { intros E. rewrite E, Rabs_R0 in L. lra. }
    assert (Bw : Rabs (d / t) <= bpow radix2 120).
    { eapply big_div; [exact Bd'|lia|]. apply Rle_trans with (bpow radix2 (-34)); [apply bpow_le; lia|lra]. }
    pose proof (ddiv_R _ _ _ _ Md Mt Nt (Rle_trans _ _ _ Bw up1000)) as Mw.
    assert (I4 : isd (d_of_Z 4) 4) by (apply (d_of_Z_exact 4); lia).
    assert (B4 : Rabs (4 * d) <= IZR 4000000000).
    { rewrite Rabs_mult, (Rabs_pos_eq 4) by lra. change (2 * 400000000)%Z with 800000000%Z in Bd'. lra. }
    pose proof (dmul_R _ _ _ _ I4 Md ltac:(eapply abs_big; [exact B4|lia])) as M4.
    assert (Btt : Rabs (t * t) <= IZR 1600000000).
    { rewrite Rabs_mult. change (2 * 20000)%Z with 40000%Z in Bt'. replace (IZR 1600000000) with (40000 * 40000) by lra.
      apply Rmult_le_compat; auto; apply Rabs_pos. }
    pose proof (dmul_R _ _ _ _ Mt Mt ltac:(eapply abs_big; [exact Btt|lia])) as Mtt.
    assert (Ltt : bpow radix2 (-68) <= rd (t * t)).
    { rewrite <- (Rmult_1_l (bpow radix2 (-68))). change 1 with (IZR 1) at 1.
      rewrite <- (rd_dyadic 1 (-68)) by lia. apply rd_mono. rewrite Rmult_1_l.
      change (-68)%Z with (-34 + -34)%Z. rewrite bpow_plus. rewrite <- (Rabs_pos_eq (t * t)) by nra. rewrite Rabs_mult.
      apply Rmult_le_compat; lra. }
    assert (P68 : 0 < bpow radix2 (-68)) by apply bpow_gt_0.
    assert (Bq : Rabs (rd (4 * d) / rd (t * t)) <= bpow radix2 120).
    { eapply big_div; [apply rd_abs; [exact B4|lia]|lia|]. rewrite Rabs_pos_eq; lra. }
    pose proof (ddiv_R _ _ _ _ M4 Mtt ltac:(lra) (Rle_trans _ _ _ Bq up1000)) as Mq.
    eexists _, _. split; [apply fmax0_R; exact Mw|]. split; [apply fmax0_R; exact Mq|].
    split; [apply max120; exact Bw|]. split; [apply max120; exact Bq|]. split; [lra|auto].
  - exists 0, 0. assert (Z : isd (fmax0 d0) 0).
    { pose proof (fmax0_R _ _ isd_d0) as Z. now rewrite Rmax_left in Z by lra. }
    pose proof (bpow_gt_0 radix2 120). split; auto. split; auto. split; [lra|]. split; [lra|]. split; [auto|lra].
Qed.

Lemma within_max e x y : within e x y -> 0 <= y -> within e (Rmax 0 x) y.
Proof.
  unfold within. intros H Hy. apply Rabs_le_inv in H. apply Rabs_le. unfold Rmax. destruct (Rle_dec 0 x); lra.
Qed.

(** Accuracy: A, B, C is the exact tensor *)
Lemma measures_near xx xy yy A B C :
  isd xx (rd A) -> isd xy (rd B) -> isd yy (rd C) -> 0 <= A -> 0 <= C -> B * B <= A * C ->
  A + C = 0 \/ 15 / 100000000000 <= A + C <= 40000 -> Rabs A <= 20000 -> Rabs B <= 20000 -> Rabs C <= 20000 ->
  exists W Q, isd (fst (measures xx xy yy)) W /\ isd (snd (measures xx xy yy)) Q /\ 0 <= W <= bpow radix2 120 /\ 0 <= Q <= bpow radix2 120 /\
    (A + C = 0 -> W = 0 /\ Q = 0) /\
    (0 < A + C -> within (1 / 1000000000) W ((A * C - B * B) / (A + C)) /\
                  within (1 / 1000000000) Q (4 * (A * C - B * B) / ((A + C) * (A + C)))).
Proof.
  intros Ia Ib Ic HA HC HB HT BA BB BC.
  destruct (measures_R xx xy yy (rd A) (rd B) (rd C)) as (W & Q & IW & IQ & PW & PQ & R0 & R1); auto;
    try (change 20000 with (IZR 20000); apply rd_abs; auto; lia).
  exists W, Q. split; auto. split; auto. split; auto. split; auto. split.
  - intros E. assert (A = 0) by lra. assert (C = 0) by lra. subst A C. apply R0.
    rewrite rd_0, Rplus_0_l, rd_0, Rabs_R0. pose proof thr_lo. pose proof (bpow_gt_0 radix2 (-34)). lra.
  - intros P. destruct HT as [HT|HT]; [lra|].
    assert (NT : nt (A + C)) by (unfold nt; lra).
    destruct (near_w A B C HA HC HB NT) as [Nw Pt]. destruct (near_q A B C HA HC HB NT) as [Nq Pq].
    assert (L : thr < Rabs (rd (rd A + rd C))).
    { rewrite Rabs_pos_eq by lra. pose proof (near_t A B C HA HC HB NT) as N. unfold within in N. apply Rabs_le_inv in N.
      pose proof thr_hi. unfold u in N. lra. }
    destruct (R1 L) as [-> ->].
    assert (D0 : 0 <= A * C - B * B) by lra.
    split; apply within_max.
    + eapply within_weak; [exact Nw|]. unfold u. lra.
    + unfold Rdiv. apply Rmult_le_pos; [lra|apply Rlt_le, Rinv_0_lt_compat; lra].
    + eapply within_weak; [exact Nq|]. unfold u. lra.
    + unfold Rdiv. apply Rmult_le_pos; [lra|apply Rlt_le, Rinv_0_lt_compat; nra].
Qed.

(** ** Scaling to bytes *)
Lemma norm_byte_R v m a M : isd v a -> isd m M -> 0 <= a <= M -> M <= bpow radix2 120 ->
  exists z, norm_byte v m = Ok z /\ (0 <= z <= 255)%Z /\ (a = 0 -> z = 0%Z) /\
    (0 < M -> 255 * a / M - 1 - 1 / 1000000000 <= IZR z <= 255 * a / M + 1 / 1000000000).
Proof.
  intros Iv Im Ha HM. unfold norm_byte. rewrite (dlt_R _ _ _ _ isd_d0 Im).
  destruct (Rlt_bool_spec 0 M) as [L|L].
  2: { exists 0%Z. split; auto. split; [lia|]. split; auto. lra. }
  assert (I255 : isd (d_of_Z 255) (IZR 255)) by (apply d_of_Z_exact; lia).
  assert (B : Rabs (255 * a) <= bpow radix2 1000).
  { rewrite Rabs_pos_eq by lra. apply Rle_trans with (256 * bpow radix2 120); [lra|].
    change 256 with (bpow radix2 8). rewrite <- bpow_plus. apply bpow_le. lia. }
  pose proof (dmul_R _ _ _ _ I255 Iv B) as Mv.
  pose proof (rd_rel (IZR 255 * a) (mult_Z 255 a (isd_mult _ _ Iv)) ltac:(lra)) as RR.
  set (p := rd (IZR 255 * a)) in *.
  assert (IM : 0 < / M) by (apply Rinv_0_lt_compat; lra).
  assert (Q : 0 <= a / M <= 1).
  { unfold Rdiv. split; [apply Rmult_le_pos; lra|]. apply Rmult_le_reg_r with M; auto.
    rewrite Rmult_assoc, Rinv_l by lra. lra. }
  assert (E255 : 255 * a / M = 255 * (a / M)) by (unfold Rdiv; ring).
  assert (N : 255 * (a / M) * (1 - 1 / 9007199254740992) <= p / M <= 255 * (a / M) * (1 + 1 / 9007199254740992)).
  { unfold Rdiv in *. split.
    - replace (255 * (a * / M) * (1 - 1 * / 9007199254740992)) with (255 * a * (1 - 1 * / 9007199254740992) * / M) by ring.
      apply Rmult_le_compat_r; lra.
    - replace (255 * (a * / M) * (1 + 1 * / 9007199254740992)) with (255 * a * (1 + 1 * / 9007199254740992) * / M) by ring.
      apply Rmult_le_compat_r; lra. }
  assert (Bq : Rabs (p / M) <= 1024) by (rewrite Rabs_pos_eq; lra).
  pose proof (ddiv_R _ _ _ _ Mv Im ltac:(lra) ltac:(apply abs_big with 1024%Z; [exact Bq|lia])) as Mq.
  pose proof (rd_e10 _ Bq) as Eq.
  assert (Eqp : 0 <= rd (p / M)) by (rewrite <- rd_0; apply rd_mono; lra).
  destruct (to_u8_R _ _ Mq ltac:(lra)) as [E R].
  exists (Ztrunc (rd (p / M))). split; auto. split; auto. split.
  - intros ->. replace p with 0; [|unfold p; rewrite Rmult_0_r; symmetry; apply rd_0].
    unfold Rdiv. rewrite Rmult_0_l, rd_0. apply Ztrunc_IZR.
  - intros _. rewrite Ztrunc_floor in * by auto. rewrite E255.
    pose proof (Zfloor_lb (rd (p / M))). pose proof (Zfloor_ub (rd (p / M))). lra.
Qed.
