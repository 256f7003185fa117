(** * P_OtsuR: rounding errors of the between-class variance *)
From Verif Require Import Base BaseLemmas F FLemmas FLemmas32 FNear.
From Coq Require Import Reals Lra Psatz.
From Flocq Require Import Core Relative.
Local Open Scope R_scope.

Definition tiny : R := 1 / 10000000000000000000000000000000000000000.

Lemma rf_any x : Rabs (rf x - x) <= uf * Rabs x + tiny.
Proof.
  destruct (error_N_FLT radix2 (-149) 24 prec32 (fun t => negb (Z.even t)) x) as (e & d & He & Hd & _ & E).
  change (rf x = x * (1 + e) + d) in E. rewrite E.
  replace (x * (1 + e) + d - x) with (x * e + d) by ring.
  eapply Rle_trans; [apply Rabs_triang|]. rewrite Rabs_mult. apply Rplus_le_compat.
  - rewrite Rmult_comm. apply Rmult_le_compat_r; [apply Rabs_pos|]. eapply Rle_trans; [exact He|].
    change (bpow radix2 (- (24) + 1)) with (/ 8388608). unfold uf. lra.
  - eapply Rle_trans; [exact Hd|]. unfold tiny.
    change (bpow radix2 (-149)) with (/ 713623846352979940529142984724747568191373312). lra.
Qed.


Lemma fsub_R x y a b : isf x a -> isf y b -> (Rabs (a - b) <= bpow radix2 100)%R -> isf (fsub x y) (rf (a - b)).
Proof.
  intros [Fx Rx] [Fy Ry] H. pose proof (Bminus_correct 24 128 _ _ mode_NE x y Fx Fy) as C.
  rewrite Rx, Ry in C. cbv [round_mode] in C. fold (rf (a - b)) in C. rewrite rf_lt_emax in C by auto.
  destruct C as (C1 & C2 & _). split; auto.
Qed.
Lemma flt_R x y a b : isf x a -> isf y b -> flt x y = Rlt_bool a b.
Proof. intros [Fx <-] [Fy <-]. now apply Bltb_correct. Qed.
Lemma feq_R x y a b : isf x a -> isf y b -> feq x y = Req_bool a b.
Proof. intros [Fx <-] [Fy <-]. now apply Beqb_correct. Qed.
Lemma isf_format x a : isf x a -> rf a = a.
Proof. intros [F <-]. apply gr_format; auto with typeclass_instances. apply generic_format_B2R. Qed.

(** A float below 1 is at most 1 - 2^-24. *)
Lemma below_one x a : isf x a -> a < 1 -> uf <= 1 - a.
Proof.
  intros [F <-] H. assert (V : Valid_exp (SpecFloat.fexp 24 128)) by (apply vfexp; exact prec32).
  assert (L : B2R x <= pred radix2 (SpecFloat.fexp 24 128) (bpow radix2 0)).
  { apply pred_ge_gt; auto.
    - apply generic_format_B2R.
    - apply (format_bpow 24 128); try exact prec32; lia. }
  rewrite pred_bpow in L. change (bpow radix2 0) with 1 in L.
  change (bpow radix2 (SpecFloat.fexp 24 128 0)) with (/ 16777216) in L. unfold uf. lra.
Qed.
Lemma f_of_Z_R z : (Z.abs z <= 4294967296)%Z -> isf (f_of_Z z) (rf (IZR z)).
Proof.
  intros Hz. pose proof (binary_normalize_correct 24 128 _ _ mode_NE z 0 false) as C.
  cbv zeta in C.
  replace (F2R {| Fnum := z; Fexp := 0 |}) with (IZR z) in C.
  2: { unfold F2R; simpl. now rewrite Rmult_1_r. }
  cbv [round_mode] in C. fold (rf (IZR z)) in C. rewrite rf_lt_emax in C.
  - destruct C as (C1 & C2 & _). split; auto.
  - rewrite <- abs_IZR. apply Rle_trans with (IZR 4294967296); [now apply IZR_le|].
    change 4294967296%Z with (Zpower radix2 32). rewrite IZR_Zpower by lia. apply bpow_le; lia.
Qed.

Lemma absmul x y X Y : Rabs x <= X -> Rabs y <= Y -> Rabs (x * y) <= X * Y.
Proof. intros. rewrite Rabs_mult. apply Rmult_le_compat; auto using Rabs_pos. Qed.
Lemma absadd x y X Y : Rabs x <= X -> Rabs y <= Y -> Rabs (x + y) <= X + Y.
Proof. intros. eapply Rle_trans; [apply Rabs_triang|lra]. Qed.
Lemma abstri a b c X Y : Rabs (a - b) <= X -> Rabs (b - c) <= Y -> Rabs (a - c) <= X + Y.
Proof. intros. replace (a - c) with ((a - b) + (b - c)) by ring. now apply absadd. Qed.
Lemma absdiv x y X Y : Rabs x <= X -> 0 < Y <= y -> Rabs (x / y) <= X / Y.
Proof.
  intros Hx Hy. unfold Rdiv. apply absmul; auto. rewrite Rabs_pos_eq.
  - apply Rinv_le_contravar; lra.
  - left. apply Rinv_0_lt_compat. lra.
Qed.
Lemma abs_le x X : - X <= x <= X -> Rabs x <= X.
Proof. intros. now apply Rabs_le. Qed.
Lemma abs_inv x X : Rabs x <= X -> - X <= x <= X.
Proof. apply Rabs_le_inv. Qed.

Section Variance.
(** Exact share and mean of the dark pixels, mean of all; and their approximations *)
Context (A W M G s m g : R).
Let a := 1 - W.
Let a' := 1 - s.
Let r := A / a'.
Context (HA : 12 * uf <= A <= 1 / 60000) (HW : 0 < W < 1) (HM : 0 <= M <= 255 * W) (HG : 0 <= G - M <= 255 * a).
Context (Hs : Rabs (s - W) <= A * W) (Hm : Rabs (m - M) <= A * M) (Hg : Rabs (g - G) <= A * G) (Ha' : uf <= a').

Let mu1 := M / W.
Let mu2 := (G - M) / a.
Let m1 := m / s.
Let m2 := (g - m) / a'.

Lemma a_pos : 0 < a. Proof. unfold a. lra. Qed.
Lemma a'_pos : 0 < a'. Proof. pose proof uf_pos. lra. Qed.
Lemma s_range : 0 < s < 1 /\ W * (59999 / 60000) <= s <= W * (60001 / 60000).
Proof.
  pose proof a'_pos. unfold a' in *. apply abs_inv in Hs.
  assert (A * W <= 1 / 60000 * W) by (apply Rmult_le_compat_r; lra). lra.
Qed.
Lemma a'_le : a' <= 1. Proof. pose proof s_range. unfold a'. lra. Qed.
Lemma r_eq : r * a' = A. Proof. unfold r. pose proof a'_pos. field. lra. Qed.
Lemma r_ge : A <= r.
Proof.
  pose proof r_eq. pose proof a'_le. pose proof a'_pos. unfold r in *. pose proof uf_pos.
  apply Rmult_le_reg_r with a'; auto. assert (A * a' <= A * 1) by (apply Rmult_le_compat_l; lra). lra.
Qed.
Lemma r_le : r * uf <= A.
Proof.
  rewrite <- r_eq. apply Rmult_le_compat_l; auto. pose proof r_ge. pose proof uf_pos. lra.
Qed.

Lemma mu1_range : 0 <= mu1 <= 255.
Proof.
  unfold mu1. split; apply Rmult_le_reg_r with W; try lra; unfold Rdiv; rewrite Rmult_assoc, Rinv_l by lra; lra.
Qed.
Lemma mu2_range : 0 <= mu2 <= 255.
Proof.
  pose proof a_pos. unfold mu2. split; apply Rmult_le_reg_r with a; try lra; unfold Rdiv; rewrite Rmult_assoc, Rinv_l by lra; lra.
Qed.

Lemma m1_near : Rabs (m1 - mu1) <= 511 * A.
Proof.
  destruct s_range as [S1 S2]. pose proof uf_pos as U. unfold m1, mu1.
  replace (m / s - M / W) with (((m - M) * W - M * (s - W)) / (s * W)) by (field; lra).
  assert (N : Rabs ((m - M) * W - M * (s - W)) <= 2 * A * M * W).
  { unfold Rminus at 1. eapply Rle_trans; [apply absadd|].
    - apply absmul; [exact Hm|]. rewrite (Rabs_pos_eq W) by lra. apply Rle_refl.
    - rewrite Rabs_Ropp. apply absmul; [|exact Hs]. rewrite (Rabs_pos_eq M) by lra. apply Rle_refl.
    - lra. }
  assert (SW : 0 < s * W) by (apply Rmult_lt_0_compat; lra).
  eapply Rle_trans; [apply absdiv; [exact N|split; [exact SW|apply Rle_refl]]|].
  replace (2 * A * M * W / (s * W)) with (2 * A * (M / s)) by (field; lra).
  assert (M / s <= 255 * (60000 / 59999)).
  { apply Rmult_le_reg_r with s; [lra|]. unfold Rdiv at 1. rewrite Rmult_assoc, Rinv_l by lra. lra. }
  replace (511 * A) with (2 * A * (511 / 2)) by field. apply Rmult_le_compat_l; lra.
Qed.

Lemma m2_near : Rabs (m2 - mu2) <= 765 * r.
Proof.
  pose proof a_pos. pose proof a'_pos. pose proof uf_pos. pose proof mu2_range as R2.
  assert (E : m2 - mu2 = ((g - G) - (m - M) + mu2 * (s - W)) / a').
  { unfold m2, mu2. fold a. unfold a, a' in *. field. lra. }
  rewrite E. unfold r. replace (765 * (A / a')) with (765 * A / a') by (field; lra).
  apply absdiv; [|lra].
  replace (765 * A) with (255 * A + 255 * A + 255 * A) by ring.
  assert (G <= 255) by (unfold a in *; lra).
  apply absadd; [unfold Rminus at 1; apply absadd|].
  - eapply Rle_trans; [exact Hg|]. rewrite Rmult_comm. apply Rmult_le_compat_r; lra.
  - rewrite Rabs_Ropp. eapply Rle_trans; [exact Hm|]. rewrite Rmult_comm. apply Rmult_le_compat_r; lra.
  - apply absmul; [rewrite Rabs_pos_eq; lra|]. eapply Rle_trans; [exact Hs|].
    rewrite <- (Rmult_1_r A) at 2. apply Rmult_le_compat_l; lra.
Qed.
Lemma m1_le : Rabs m1 <= 256.
Proof.
  pose proof m1_near as N. apply abs_inv in N. pose proof mu1_range. apply abs_le. lra.
Qed.
Lemma m2_le : Rabs m2 <= 255 + 765 * r.
Proof.
  pose proof m2_near as N. apply abs_inv in N. pose proof mu2_range. apply abs_le. lra.
Qed.

(** The computed variance *)
Let x1 := rf m1.
Let y := rf (g - m).
Let z := rf a'.
Let x2 := rf (y / z).
Let d := rf (x1 - x2).
Let P := s * z.
Let v := rf (rf (rf P * d) * d).

Lemma tiny_small : 0 < tiny <= 1 / 1000000000000000000000000000000 * uf.
Proof. unfold tiny, uf. lra. Qed.

Lemma z_near : Rabs (z - a') <= 101 / 100 * uf * a' /\ 999 / 1000 * a' <= z <= 1001 / 1000 * a'.
Proof.
  pose proof a'_pos as Pa. pose proof uf_pos as U. pose proof tiny_small as T.
  assert (N : Rabs (z - a') <= 101 / 100 * uf * a').
  { unfold z. eapply Rle_trans; [apply rf_any|]. rewrite (Rabs_pos_eq a') by lra.
    assert (tiny <= 1 / 100 * uf * a'); [|lra].
    apply Rle_trans with (1 / 100 * uf * uf); [unfold tiny, uf; lra|]. apply Rmult_le_compat_l; lra. }
  split; auto. apply abs_inv in N. unfold uf in *. lra.
Qed.

Lemma x2_near : Rabs (x2 - m2) <= 4 * uf * Rabs m2 + uf / 1000.
Proof.
  pose proof a'_pos as Pa. pose proof uf_pos as U. pose proof tiny_small as T. destruct z_near as [Z1 Z2].
  assert (Y : Rabs (y - (g - m)) <= uf * (Rabs m2 * a') + tiny).
  { unfold y. eapply Rle_trans; [apply rf_any|].
    assert (E : g - m = m2 * a') by (unfold m2; field; lra). rewrite E, Rabs_mult, (Rabs_pos_eq a') by lra. lra. }
  assert (D : Rabs (y / z - m2) <= 21 / 10 * uf * Rabs m2 + uf / 10000).
  { assert (E : y / z - m2 = ((y - (g - m)) - m2 * (z - a')) / z) by (unfold m2; field; lra).
    rewrite E. eapply Rle_trans; [apply absdiv with (Y := 999 / 1000 * a'); [|lra]|].
    - unfold Rminus at 1. apply absadd; [exact Y|]. rewrite Rabs_Ropp. apply absmul; [apply Rle_refl|exact Z1].
    - replace ((uf * (Rabs m2 * a') + tiny + Rabs m2 * (101 / 100 * uf * a')) / (999 / 1000 * a'))
        with (201 / 100 * (1000 / 999) * uf * Rabs m2 + 1000 / 999 * (tiny / a')) by (field; lra).
      apply Rplus_le_compat.
      + apply Rmult_le_compat_r; [apply Rabs_pos|]. apply Rmult_le_compat_r; lra.
      + assert (tiny / a' <= 1 / 20000 * uf); [|lra].
        apply Rmult_le_reg_r with a'; auto. unfold Rdiv at 1. rewrite Rmult_assoc, Rinv_l by lra.
        apply Rle_trans with (1 / 20000 * uf * uf); [unfold tiny, uf; lra|]. apply Rmult_le_compat_l; lra. }
  assert (B : Rabs (y / z) <= 11 / 10 * Rabs m2 + uf / 10000).
  { apply abs_inv in D. pose proof (Rabs_pos m2). pose proof (Rle_abs m2). pose proof (Rle_abs (- m2)) as Q. rewrite Rabs_Ropp in Q.
    assert (uf * Rabs m2 <= 1 / 100 * Rabs m2) by (apply Rmult_le_compat_r; [lra|unfold uf; lra]).
    apply abs_le. lra. }
  eapply Rle_trans; [apply abstri with (y / z); [apply rf_any|exact D]|].
  assert (uf * Rabs (y / z) <= uf * (11 / 10 * Rabs m2 + uf / 10000)) by (apply Rmult_le_compat_l; lra).
  assert (uf * uf <= uf / 100) by (unfold uf; lra).
  pose proof (Rabs_pos m2). assert (0 <= uf * Rabs m2) by (apply Rmult_le_pos; lra). lra.
Qed.

Lemma d_near : Rabs (d - (mu1 - mu2)) <= 766 * r + 670 * A.
Proof.
  pose proof a'_pos as Pa. pose proof uf_pos as U. pose proof tiny_small as T.
  pose proof m1_near as N1. pose proof m2_near as N2. pose proof m1_le as L1. pose proof m2_le as L2.
  pose proof x2_near as X2. pose proof r_ge as Rg. pose proof r_le as Rl.
  assert (X1 : Rabs (x1 - m1) <= 257 * uf).
  { unfold x1. eapply Rle_trans; [apply rf_any|].
    assert (uf * Rabs m1 <= uf * 256) by (apply Rmult_le_compat_l; lra). unfold tiny, uf in *. lra. }
  assert (B2 : Rabs (x2 - m2) <= 1021 * uf + 3060 * (r * uf)).
  { eapply Rle_trans; [exact X2|].
    assert (4 * uf * Rabs m2 <= 4 * uf * (255 + 765 * r)) by (apply Rmult_le_compat_l; lra). lra. }
  assert (Bd : Rabs (x1 - x2) <= 514 + 770 * r).
  { apply abs_inv in X1. apply abs_inv in B2. apply abs_inv in L1. apply abs_inv in L2.
    assert (r * uf <= r * (1 / 1000)) by (apply Rmult_le_compat_l; [lra|unfold uf; lra]).
    assert (1021 * uf <= 1) by (unfold uf; lra).
    apply abs_le. lra. }
  assert (D : Rabs (d - (x1 - x2)) <= 515 * uf + 770 * (r * uf)).
  { unfold d. eapply Rle_trans; [apply rf_any|].
    assert (uf * Rabs (x1 - x2) <= uf * (514 + 770 * r)) by (apply Rmult_le_compat_l; lra).
    unfold tiny, uf in *. lra. }
  assert (F : Rabs (d - (m1 - m2)) <= 1793 * uf + 3830 * (r * uf)).
  { apply abs_inv in D. apply abs_inv in X1. apply abs_inv in B2. apply abs_le. lra. }
  assert (r * uf <= r * (1 / 10000)) by (apply Rmult_le_compat_l; [lra|unfold uf; lra]).
  apply abs_inv in F. apply abs_inv in N1. apply abs_inv in N2. apply abs_le. lra.
Qed.

Lemma Wa_le : W * a <= 1 / 4.
Proof. unfold a. pose proof (Rle_0_sqr (W - 1 / 2)) as Q. unfold Rsqr in Q. lra. Qed.
Lemma P_near : Rabs (P - W * a) <= 11 / 10 * A /\ 0 < P /\ P <= 1002 / 1000 * a' /\ P <= 2504 / 10000.
Proof.
  pose proof a'_pos as Pa. pose proof a'_le as La. pose proof uf_pos as U. destruct s_range as [S1 S2]. destruct z_near as [Z1 Z2].
  assert (N1 : Rabs (s * (z - a')) <= 1 / 20 * A + 1 / 24 * A).
  { eapply Rle_trans; [apply absmul; [|exact Z1]; rewrite Rabs_pos_eq; [apply Rlt_le; apply S1|lra]|].
    assert (uf * a' <= uf * 1) by (apply Rmult_le_compat_l; lra). lra. }
  assert (N2 : Rabs (s * a' - W * a) <= 1001 / 1000 * A).
  { replace (s * a' - W * a) with ((s - W) * (a' - W)) by (unfold a, a'; ring).
    assert (Q : Rabs (a' - W) <= 1001 / 1000).
    { unfold a'. apply abs_le. lra. }
    eapply Rle_trans; [apply absmul; [exact Hs|exact Q]|].
    assert (A * W <= A * 1) by (apply Rmult_le_compat_l; lra). lra. }
  assert (N : Rabs (P - W * a) <= 11 / 10 * A).
  { replace (P - W * a) with (s * (z - a') + (s * a' - W * a)) by (unfold P; ring).
    eapply Rle_trans; [apply absadd; [exact N1|exact N2]|]. lra. }
  split; auto. split; [unfold P; apply Rmult_lt_0_compat; lra|]. split.
  - unfold P. apply Rle_trans with (1 * z); [apply Rmult_le_compat_r; lra|lra].
  - apply abs_inv in N. pose proof Wa_le. lra.
Qed.

Lemma delta_range : Rabs (mu1 - mu2) <= 255.
Proof. pose proof mu1_range. pose proof mu2_range. apply abs_le. lra. Qed.

(** The exact variance, and what the rounding of the last products does *)
Lemma Pdd_near : Rabs (P * (d * d) - W * a * ((mu1 - mu2) * (mu1 - mu2))) <= 550000 * A + 590000 * (A * r).
Proof.
  pose proof uf_pos as U. pose proof r_ge as Rg. pose proof r_eq as Re. pose proof a'_pos as Pa.
  destruct P_near as (P1 & P2 & P3 & P4). pose proof d_near as D. pose proof delta_range as De.
  set (De' := mu1 - mu2) in *. set (Q := 766 * r + 670 * A) in *.
  replace (P * (d * d) - W * a * (De' * De')) with ((P - W * a) * (De' * De') + P * ((d - De') * (2 * De' + (d - De')))) by ring.
  assert (Q0 : 0 <= Q) by (unfold Q; lra).
  assert (T1 : Rabs ((P - W * a) * (De' * De')) <= 11 / 10 * A * (255 * 255)).
  { apply absmul; auto. now apply absmul. }
  assert (T2 : Rabs (P * ((d - De') * (2 * De' + (d - De')))) <= P * (Q * (510 + Q))).
  { apply absmul; [rewrite Rabs_pos_eq; lra|]. apply absmul; auto. apply absadd; auto.
    apply abs_inv in De. apply abs_le. lra. }
  assert (T3 : P * Q <= 936 * A).
  { unfold Q. rewrite Rmult_plus_distr_l.
    assert (P * (766 * r) <= 1002 / 1000 * a' * (766 * r)) by (apply Rmult_le_compat_r; lra).
    assert (P * (670 * A) <= 2504 / 10000 * (670 * A)) by (apply Rmult_le_compat_r; lra).
    replace (1002 / 1000 * a' * (766 * r)) with (1002 / 1000 * 766 * (r * a')) in H by ring. rewrite Re in H. lra. }
  assert (T4 : P * (Q * Q) <= 590000 * (A * r) + 30 * A).
  { apply Rle_trans with (1002 / 1000 * a' * (Q * Q)); [apply Rmult_le_compat_r; auto; now apply Rmult_le_pos|].
    replace (1002 / 1000 * a' * (Q * Q)) with
      (1002 / 1000 * (766 * 766 * (r * a') * r + 2 * 766 * 670 * (r * a') * A + 670 * 670 * A * (A * a'))) by (unfold Q; ring).
    rewrite Re. pose proof a'_le as La.
    assert (A * A <= A * (1 / 60000)) by (apply Rmult_le_compat_l; lra).
    assert (A * a' <= A * 1) by (apply Rmult_le_compat_l; lra).
    assert (A * (A * a') <= A * A) by (apply Rmult_le_compat_l; lra).
    assert (0 <= A * r) by (apply Rmult_le_pos; lra).
    lra. }
  eapply Rle_trans; [apply absadd; [exact T1|exact T2]|].
  replace (P * (Q * (510 + Q))) with (510 * (P * Q) + P * (Q * Q)) by ring. lra.
Qed.

Lemma v_near : Rabs (v - W * a * ((mu1 - mu2) * (mu1 - mu2))) <= 600000 * A + 600000 * (A * r).
Proof.
  pose proof uf_pos as U. pose proof r_ge as Rg. pose proof r_eq as Re. pose proof a'_pos as Pa. pose proof tiny_small as T.
  pose proof r_le as Rl. destruct P_near as (P1 & P2 & P3 & P4). pose proof d_near as D. pose proof delta_range as De.
  pose proof Pdd_near as N. set (X := W * a * ((mu1 - mu2) * (mu1 - mu2))) in *.
  assert (HX : 0 <= X <= 16400).
  { unfold X. pose proof a_pos. pose proof Wa_le.
    assert (0 <= W * a) by (apply Rmult_le_pos; lra).
    assert (0 <= (mu1 - mu2) * (mu1 - mu2) <= 255 * 255).
    { pose proof (absmul _ _ _ _ De De) as Q. apply abs_inv in Q. split; [apply Rle_0_sqr|lra]. }
    split; [apply Rmult_le_pos; lra|].
    apply Rle_trans with (1 / 4 * (255 * 255)); [apply Rmult_le_compat; lra|lra]. }
  assert (Hd : Rabs d <= 13000000000).
  { apply abs_inv in De. apply abs_inv in D. assert (r <= 1000).
    { apply Rmult_le_reg_r with uf; auto. eapply Rle_trans; [exact Rl|]. unfold uf. lra. }
    apply abs_le. lra. }
  assert (Hdd : 0 <= d * d) by apply Rle_0_sqr. set (Y := P * (d * d)) in *.
  assert (HY : 0 <= Y) by (unfold Y; apply Rmult_le_pos; lra).
  (* first product *)
  assert (R1 : Rabs (rf P - P) <= uf * P + tiny).
  { eapply Rle_trans; [apply rf_any|]. rewrite (Rabs_pos_eq P) by lra. lra. }
  set (t1 := rf P * d).
  assert (R2 : Rabs (t1 - P * d) <= (uf * P + tiny) * Rabs d).
  { replace (t1 - P * d) with ((rf P - P) * d) by (unfold t1; ring). apply absmul; [exact R1|apply Rle_refl]. }
  assert (R3 : Rabs (rf t1 - t1) <= uf * Rabs t1 + tiny) by apply rf_any.
  assert (B1 : Rabs t1 <= (1001 / 1000 * P + tiny) * Rabs d).
  { replace t1 with ((t1 - P * d) + P * d) by ring. eapply Rle_trans; [apply absadd; [exact R2|rewrite Rabs_mult; apply Rle_refl]|].
    rewrite (Rabs_pos_eq P) by lra. pose proof (Rabs_pos d).
    assert (uf * P <= 1 / 1000 * P) by (apply Rmult_le_compat_r; [lra|unfold uf; lra]).
    replace ((uf * P + tiny) * Rabs d + P * Rabs d) with ((uf * P + tiny + P) * Rabs d) by ring.
    apply Rmult_le_compat_r; lra. }
  assert (Ad : Rabs d * Rabs d = d * d) by (rewrite <- Rabs_mult; apply Rabs_pos_eq; auto).
  assert (K : tiny * (d * d) <= uf).
  { rewrite <- Ad. pose proof (Rabs_pos d). apply Rle_trans with (tiny * (13000000000 * 13000000000)).
    - apply Rmult_le_compat_l; [lra|]. apply Rmult_le_compat; auto.
    - unfold tiny, uf. lra. }
  assert (K2 : tiny * Rabs d <= uf).
  { apply Rle_trans with (tiny * 13000000000); [apply Rmult_le_compat_l; lra|]. unfold tiny, uf. lra. }
  set (t2 := rf t1 * d).
  assert (Ktd : 0 <= tiny * (d * d)) by (apply Rmult_le_pos; lra).
  assert (R4 : Rabs (t2 - Y) <= 21 / 10 * uf * Y + 3 * uf).
  { replace (t2 - Y) with ((rf t1 - t1) * d + (t1 - P * d) * d) by (unfold t2, Y; ring).
    eapply Rle_trans; [apply absadd; [apply absmul; [exact R3|apply Rle_refl]|apply absmul; [exact R2|apply Rle_refl]]|].
    assert (E1 : (uf * Rabs t1 + tiny) * Rabs d <= 1002 / 1000 * uf * Y + 15 / 10 * uf).
    { replace ((uf * Rabs t1 + tiny) * Rabs d) with (uf * (Rabs t1 * Rabs d) + tiny * Rabs d) by ring.
      assert (Rabs t1 * Rabs d <= (1001 / 1000 * P + tiny) * Rabs d * Rabs d) by (apply Rmult_le_compat_r; [apply Rabs_pos|exact B1]).
      replace ((1001 / 1000 * P + tiny) * Rabs d * Rabs d) with (1001 / 1000 * (P * (Rabs d * Rabs d)) + tiny * (Rabs d * Rabs d)) in H by ring.
      rewrite Ad in H. fold Y in H.
      assert (uf * (Rabs t1 * Rabs d) <= uf * (1001 / 1000 * Y + uf)) by (apply Rmult_le_compat_l; lra).
      assert (uf * uf <= uf / 100) by (unfold uf; lra).
      assert (0 <= uf * Y) by (apply Rmult_le_pos; lra). lra. }
    assert (E2 : (uf * P + tiny) * Rabs d * Rabs d <= uf * Y + uf).
    { replace ((uf * P + tiny) * Rabs d * Rabs d) with (uf * (P * (Rabs d * Rabs d)) + tiny * (Rabs d * Rabs d)) by ring.
      rewrite Ad. fold Y. lra. }
    assert (0 <= uf * Y) by (apply Rmult_le_pos; lra). lra. }
  assert (R5 : Rabs (v - Y) <= 32 / 10 * uf * Y + 5 * uf).
  { change v with (rf t2). eapply Rle_trans; [apply abstri with t2; [apply rf_any|exact R4]|].
    assert (0 <= uf * Y) by (apply Rmult_le_pos; lra).
    assert (Rabs t2 <= 101 / 100 * Y + 3 * uf).
    { apply abs_inv in R4. assert (uf * Y <= 1 / 1000 * Y) by (apply Rmult_le_compat_r; [lra|unfold uf; lra]).
      apply abs_le. lra. }
    assert (uf * Rabs t2 <= uf * (101 / 100 * Y + 3 * uf)) by (apply Rmult_le_compat_l; lra).
    assert (uf * uf <= uf / 100) by (unfold uf; lra). lra. }
  assert (BY : Y <= 16400 + (550000 * A + 590000 * (A * r))) by (apply abs_inv in N; lra).
  assert (0 <= A * r) by (apply Rmult_le_pos; lra).
  assert (uf * Y <= uf * (16400 + (550000 * A + 590000 * (A * r)))) by (apply Rmult_le_compat_l; lra).
  assert (uf * A <= 1 / 1000000 * A) by (apply Rmult_le_compat_r; [lra|unfold uf; lra]).
  assert (uf * (A * r) <= 1 / 1000000 * (A * r)) by (apply Rmult_le_compat_r; [lra|unfold uf; lra]).
  eapply Rle_trans; [apply abstri with Y; [exact R5|exact N]|]. lra.
Qed.
End Variance.
