(** * FLemmas32: real-number semantics of the single-precision operations of [F.v],
    and relative rounding errors *)
From Verif Require Import Base BaseLemmas F FLemmas.
From Coq Require Import Reals Lra.
From Flocq Require Import Core Relative.
Local Open Scope Z_scope.

Definition isf (x : f32) (r : R) : Prop := is_finite x = true /\ B2R x = r.

Lemma rf_IZR z : Z.abs z <= 16777216 -> rf (IZR z) = IZR z.
Proof. intros. apply gr_format; auto with typeclass_instances. apply format_IZR; try exact prec32; try lia; change (2 ^ 24) with 16777216; lia. Qed.
Lemma rf_mono x y : (x <= y)%R -> (rf x <= rf y)%R.
Proof. apply gr_le. exact prec32. Qed.
Lemma rf_0 : rf 0 = 0%R.
Proof. apply gr_0. Qed.

Lemma rf_bound r : (Rabs r <= bpow radix2 100)%R -> (Rabs (rf r) <= bpow radix2 100)%R.
Proof.
  intros H. apply Rabs_le. apply Rabs_le_inv in H. destruct H as [H1 H2].
  assert (F : rf (bpow radix2 100) = bpow radix2 100).
  { apply gr_format; auto with typeclass_instances. apply format_bpow; try exact prec32; lia. }
  assert (F' : rf (- bpow radix2 100) = (- bpow radix2 100)%R).
  { apply gr_format; auto with typeclass_instances. apply generic_format_opp. apply format_bpow; try exact prec32; lia. }
  rewrite <- F at 2. rewrite <- F'. split; apply rf_mono; auto.
Qed.
Lemma rf_lt_emax r : (Rabs r <= bpow radix2 100)%R -> Rlt_bool (Rabs (rf r)) (bpow radix2 128) = true.
Proof.
  intros H. apply Rlt_bool_true. eapply Rle_lt_trans; [apply rf_bound; exact H|]. apply bpow_lt; lia.
Qed.

Lemma fadd_R x y a b : isf x a -> isf y b -> (Rabs (a + b) <= bpow radix2 100)%R -> isf (fadd x y) (rf (a + b)).
Proof.
  intros [Fx Rx] [Fy Ry] H. pose proof (Bplus_correct 24 128 _ _ mode_NE x y Fx Fy) as C.
  rewrite Rx, Ry in C. cbv [round_mode] in C. fold (rf (a + b)) in C. rewrite rf_lt_emax in C by auto.
  destruct C as (C1 & C2 & _). split; auto.
Qed.
Lemma fmul_R x y a b : isf x a -> isf y b -> (Rabs (a * b) <= bpow radix2 100)%R -> isf (fmul x y) (rf (a * b)).
Proof.
  intros [Fx Rx] [Fy Ry] H. pose proof (Bmult_correct 24 128 _ _ mode_NE x y) as C.
  rewrite Rx, Ry in C. cbv [round_mode] in C. fold (rf (a * b)) in C. rewrite rf_lt_emax in C by auto.
  rewrite Fx, Fy in C. destruct C as (C1 & C2 & _). split; auto.
Qed.
Lemma fdiv_R x y a b : isf x a -> isf y b -> b <> 0%R -> (Rabs (a / b) <= bpow radix2 100)%R ->
  isf (fdiv x y) (rf (a / b)).
Proof.
  intros [Fx Rx] [Fy Ry] Hb H. pose proof (Bdiv_correct 24 128 _ _ mode_NE x y) as C.
  rewrite Rx, Ry in C. specialize (C Hb). cbv [round_mode] in C. fold (rf (a / b)) in C. rewrite rf_lt_emax in C by auto.
  rewrite Fx in C. destruct C as (C1 & C2 & _). split; auto.
Qed.
Lemma f_of_Z_exact z : Z.abs z <= 16777216 -> isf (f_of_Z z) (IZR z).
Proof.
  intros Hz. pose proof (binary_normalize_correct 24 128 _ _ mode_NE z 0 false) as C.
  cbv zeta in C.
  replace (F2R {| Fnum := z; Fexp := 0 |}) with (IZR z) in C.
  2: { unfold F2R; simpl. now rewrite Rmult_1_r. }
  cbv [round_mode] in C. fold (rf (IZR z)) in C. rewrite rf_lt_emax in C.
  - rewrite rf_IZR in C by auto. destruct C as (C1 & C2 & _). split; auto.
  - rewrite <- abs_IZR. apply Rle_trans with (IZR 16777216); [now apply IZR_le|].
    change 16777216 with (Zpower radix2 24). rewrite IZR_Zpower by lia. apply bpow_le; lia.
Qed.
Lemma isf_0 : isf (B754_zero false) 0.
Proof. split; reflexivity. Qed.

Lemma f_of_d_R x a : isd x a -> (Rabs a <= bpow radix2 100)%R -> isf (f_of_d x) (rf a).
Proof.
  intros [Fx Rx] H. destruct x as [s|s| |s m e E]; try discriminate; cbn [f_of_d].
  - cbn in Rx. subst a. rewrite rf_0. split; reflexivity.
  - pose proof (binary_normalize_correct 24 128 _ _ mode_NE (if s then Z.neg m else Z.pos m) e s) as C. cbv zeta in C.
    assert (V : F2R (Float radix2 (if s then Z.neg m else Z.pos m) e) = a).
    { rewrite <- Rx. cbn [B2R]. destruct s; reflexivity. }
    rewrite V in C. cbv [round_mode] in C. fold (rf a) in C. rewrite rf_lt_emax in C by auto.
    destruct C as (C1 & C2 & _). split; auto.
Qed.

Lemma f32_format_64 (x : f32) : generic_format radix2 (SpecFloat.fexp 53 1024) (B2R x).
Proof.
  pose proof (generic_format_B2R 24 128 x) as G.
  assert (G' : FLT_format radix2 (-149) 24 (B2R x)) by (apply FLT_format_generic; [exact prec32|exact G]).
  destruct G' as [f E1 E2 E3]. apply generic_format_FLT with (prec := 53) (emin := -1074).
  apply FLT_spec with f; auto; [|lia]. eapply Z.lt_le_trans; [exact E2|]. change (radix2 ^ 24) with 16777216.
  change (radix2 ^ 53) with 9007199254740992. lia.
Qed.
Lemma isf_small x a : isf x a -> (Rabs a <= bpow radix2 128)%R.
Proof.
  intros [F <-]. apply Rlt_le. apply abs_B2R_lt_emax.
Qed.
Lemma d_of_f_R x a : isf x a -> isd (d_of_f x) a.
Proof.
  intros Hx. pose proof (isf_small x a Hx) as B. pose proof (f32_format_64 x) as G. destruct Hx as [Fx Rx]. rewrite Rx in G.
  destruct x as [s|s| |s m e E]; try discriminate; cbn [d_of_f].
  - cbn in Rx. subst a. split; reflexivity.
  - pose proof (binary_normalize_correct 53 1024 _ _ mode_NE (if s then Z.neg m else Z.pos m) e s) as C. cbv zeta in C.
    assert (V : F2R (Float radix2 (if s then Z.neg m else Z.pos m) e) = a).
    { rewrite <- Rx. cbn [B2R]. destruct s; reflexivity. }
    rewrite V in C. cbv [round_mode] in C. fold (rd a) in C.
    rewrite rd_lt_emax in C by (eapply Rle_trans; [exact B|apply bpow_le; lia]).
    rewrite (gr_format 53 1024) in C by auto.
    destruct C as (C1 & C2 & _). split; auto.
Qed.

Lemma cast_f_R lo hi x a : isf x a -> lo <= 0 -> 0 <= hi -> (IZR lo - 1 < a)%R -> (a < IZR hi + 1)%R ->
  cast_int_f lo hi x = Ok (Ztrunc a) /\ lo <= Ztrunc a <= hi.
Proof.
  intros [Fx <-] Hlo Hhi H1 H2. pose proof (trunc_range _ lo hi Hlo H1 H2 Hhi) as T.
  unfold cast_int_f. assert (E : Btrunc x = Ztrunc (B2R x)).
  { apply eq_IZR. rewrite Btrunc_correct by exact emax32.
    unfold round, F2R, scaled_mantissa, cexp, FIX_exp; simpl. now rewrite !Rmult_1_r. }
  rewrite E, Fx. replace ((lo <=? Ztrunc (B2R x)) && (Ztrunc (B2R x) <=? hi)) with true by lia. auto.
Qed.
Lemma to_u8_f_R x a : isf x a -> (-1 < a < 256)%R -> to_u8_f x = Ok (Ztrunc a) /\ 0 <= Ztrunc a <= 255.
Proof. intros Hx H. apply cast_f_R; auto; try lia; simpl; lra. Qed.

(** ** Relative errors *)
(** Unit roundoffs of float and double *)
Definition uf : R := (1 / 16777216)%R.
Definition ud : R := (1 / 9007199254740992)%R.

Lemma rf_rel x : (x = 0 \/ bpow radix2 (-100) <= x)%R -> (x * (1 - uf) <= rf x <= x * (1 + uf))%R.
Proof.
  intros [->|H]; [rewrite rf_0; lra|].
  assert (0 < x)%R by (eapply Rlt_le_trans; [apply (bpow_gt_0 radix2)|exact H]).
  pose proof (relative_error_N_FLT radix2 (-149) 24 prec32 (fun t => negb (Z.even t)) x) as E.
  rewrite (Rabs_pos_eq x) in E by lra.
  assert (E' : (Rabs (rf x - x) <= uf * x)%R).
  { eapply Rle_trans; [apply E; eapply Rle_trans; [|exact H]; apply bpow_le; lia|]. apply Rmult_le_compat_r; [lra|].
    change (bpow radix2 (- (24) + 1)) with (/ 8388608)%R. unfold uf. lra. }
  apply Rabs_le_inv in E'. lra.
Qed.
Lemma rd_relative x : (x = 0 \/ bpow radix2 (-1000) <= x)%R -> (x * (1 - ud) <= rd x <= x * (1 + ud))%R.
Proof.
  intros [->|H]; [rewrite (gr_0 53 1024); lra|].
  assert (0 < x)%R by (eapply Rlt_le_trans; [apply (bpow_gt_0 radix2)|exact H]).
  pose proof (relative_error_N_FLT radix2 (-1074) 53 prec64 (fun t => negb (Z.even t)) x) as E.
  rewrite (Rabs_pos_eq x) in E by lra.
  assert (E' : (Rabs (rd x - x) <= ud * x)%R).
  { eapply Rle_trans; [apply E; eapply Rle_trans; [|exact H]; apply bpow_le; lia|]. apply Rmult_le_compat_r; [lra|].
    change (bpow radix2 (- (53) + 1)) with (/ 4503599627370496)%R. unfold ud. lra. }
  apply Rabs_le_inv in E'. lra.
Qed.
