(** * FErr: rounding errors of double operations *)
From Verif Require Import Base BaseLemmas F FLemmas.
From Coq Require Import Reals Psatz.
From Flocq Require Import Core Relative.
Local Open Scope Z_scope.

Local Notation u := (1 / 9007199254740992)%R.
Local Notation e22 := (1 / 4194304)%R.

Lemma rd_mono x y : (x <= y)%R -> (rd x <= rd y)%R.
Proof. apply gr_le. exact prec64. Qed.
Lemma rd_0 : rd 0 = 0%R.
Proof. apply gr_0. Qed.

(** Relative error of a rounding whose argument is a multiple of 2^-1074 *)
Lemma rd_rel x : (exists m, x = (IZR m * bpow radix2 (-1074))%R) -> (0 <= x)%R ->
  (x * (1 - u) <= rd x <= x * (1 + u))%R.
Proof.
  intros [m Hm] Hx.
  destruct (Rle_or_lt (bpow radix2 (-1022)) x) as [Hn|Hs].
  - pose proof (relative_error_N_FLT radix2 (-1074) 53 prec64 (fun t => negb (Z.even t)) x) as E.
    rewrite (Rabs_pos_eq x Hx) in E.
    assert (E' : (Rabs (rd x - x) <= u * x)%R).
    { eapply Rle_trans; [apply E; exact Hn|]. apply Rmult_le_compat_r; auto.
      change (bpow radix2 (- (53) + 1)) with (/ 4503599627370496)%R. lra. }
    apply Rabs_le_inv in E'. lra.
  - replace (rd x) with x; [lra|]. symmetry. rewrite Hm. apply rd_dyadic; [|lia].
    assert (H : (IZR m < IZR (2 ^ 52))%R).
    { apply Rmult_lt_reg_r with (bpow radix2 (-1074)); [apply bpow_gt_0|]. rewrite <- Hm.
      eapply Rlt_le_trans; [exact Hs|]. change (2 ^ 52) with (Zpower radix2 52). rewrite IZR_Zpower by lia.
      rewrite <- bpow_plus. apply bpow_le. lia. }
    apply lt_IZR in H.
    assert (0 <= m). { apply le_IZR. apply Rmult_le_reg_r with (bpow radix2 (-1074)); [apply bpow_gt_0|]. rewrite <- Hm. lra. }
    lia.
Qed.

Lemma isd_mult x a : isd x a -> exists m, a = (IZR m * bpow radix2 (-1074))%R.
Proof.
  intros [F <-]. pose proof (generic_format_B2R 53 1024 x) as G.
  apply generic_format_FLT with (prec := 53) (emin := -1074) || idtac.
  assert (G' : FLT_format radix2 (-1074) 53 (B2R x)) by (apply FLT_format_generic; [exact prec64|exact G]).
  destruct G' as [f E1 E2 E3]. exists (Fnum f * 2 ^ (Fexp f + 1074)). rewrite E1. unfold F2R.
  rewrite mult_IZR. change 2 with (radix_val radix2) at 1. rewrite IZR_Zpower by lia. rewrite Rmult_assoc, <- bpow_plus.
  do 2 f_equal. lia.
Qed.

Lemma mult_plus a b : (exists m, a = (IZR m * bpow radix2 (-1074))%R) -> (exists m, b = (IZR m * bpow radix2 (-1074))%R) ->
  exists m, (a + b = IZR m * bpow radix2 (-1074))%R.
Proof. intros [m ->] [n ->]. exists (m + n). rewrite plus_IZR. ring. Qed.
Lemma mult_Z p b : (exists m, b = (IZR m * bpow radix2 (-1074))%R) ->
  exists m, (IZR p * b = IZR m * bpow radix2 (-1074))%R.
Proof. intros [n ->]. exists (p * n). rewrite mult_IZR. ring. Qed.

(** Absolute errors at a few magnitudes *)
Lemma rd_e31 x : (Rabs x <= 2147483648)%R -> (x - e22 <= rd x <= x + e22)%R.
Proof.
  intros H. pose proof (rd_near x 31 2147483648 ltac:(lia) eq_refl H) as N.
  change (bpow radix2 (-53)) with (/ 9007199254740992)%R in N. lra.
Qed.
Lemma rd_e10 x : (Rabs x <= 1024)%R -> (x - 1 / 8796093022208 <= rd x <= x + 1 / 8796093022208)%R.
Proof.
  intros H. pose proof (rd_near x 10 1024 ltac:(lia) eq_refl H) as N.
  change (bpow radix2 (-53)) with (/ 9007199254740992)%R in N. lra.
Qed.
Lemma rd_e0 x : (Rabs x <= 1)%R -> (x - u <= rd x <= x + u)%R.
Proof.
  intros H. pose proof (rd_near x 0 1 ltac:(lia) eq_refl H) as N.
  change (bpow radix2 (-53)) with (/ 9007199254740992)%R in N. lra.
Qed.
Lemma big31 r : (Rabs r <= 2147483648)%R -> (Rabs r <= bpow radix2 1000)%R.
Proof. intros. apply abs_big with 2147483648; auto. lia. Qed.

Lemma sign_pos (x : f64) : (0 < B2R x)%R -> Bsign x = false.
Proof.
  destruct x as [s|s| |s m e H]; cbn [B2R]; try lra. destruct s; [|reflexivity].
  intros H1. exfalso. pose proof (F2R_lt_0 radix2 (Float radix2 (Z.neg m) e)) as H2. cbn [SpecFloat.cond_Zopp] in H1.
  specialize (H2 eq_refl). exact (Rlt_asym _ _ H1 H2).
Qed.

