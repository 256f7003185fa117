(** * FLemmas: real-number semantics of the float operations of [F.v] *)
From Verif Require Import Base BaseLemmas F.
From Coq Require Import Reals Lra.
From Flocq Require Import Core.
Open Scope Z_scope.

Section Generic.
Context (prec emax : Z) {Hp : FLX.Prec_gt_0 prec} {He : Prec_lt_emax prec emax}.
Let fexp := SpecFloat.fexp prec emax.
Definition gr (x : R) : R := round radix2 fexp ZnearestE x.

Global Instance vfexp : Valid_exp fexp.
Proof. apply (fexp_correct prec emax). exact Hp. Qed.

Lemma gr_le x y : (x <= y)%R -> (gr x <= gr y)%R.
Proof. apply round_le; auto with typeclass_instances. Qed.
Lemma gr_0 : gr 0 = 0%R.
Proof. apply round_0; auto with typeclass_instances. Qed.

Lemma gr_format x : generic_format radix2 fexp x -> gr x = x.
Proof. apply round_generic; auto with typeclass_instances. Qed.

Lemma format_IZR z : (Z.abs z <= 2 ^ prec)%Z -> (prec <= emax - 1)%Z -> (3 - emax - prec <= 0)%Z -> generic_format radix2 fexp (IZR z).
Proof.
  intros Hz He1 He2.
  assert (F : generic_format radix2 (FLT_exp (3 - emax - prec) prec) (IZR z)).
  { destruct (Z.eq_dec (Z.abs z) (2 ^ prec)) as [E|E].
    - assert (P : 0 < prec) by exact Hp.
      replace (IZR z) with (F2R (Float radix2 (Z.sgn z) prec)).
      2: { unfold F2R; simpl Fnum; simpl Fexp. rewrite <- IZR_Zpower by lia.
           rewrite <- mult_IZR. f_equal. change (Zpower radix2 prec) with (2 ^ prec).
           rewrite <- E, Z.mul_comm. apply Z.abs_sgn. }
      apply generic_format_FLT. apply FLT_spec with (Float radix2 (Z.sgn z) prec); [reflexivity| |cbn [Fexp]; lia].
      simpl Fnum. change (Zpower radix2 prec) with (2 ^ prec). pose proof (Z.pow_gt_lin_r 2 prec).
      assert (Z.abs (Z.sgn z) <= 1) by (destruct z; simpl; lia). lia.
    - apply generic_format_FLT. apply FLT_spec with (Float radix2 z 0); [|simpl Fnum|cbn [Fexp]; lia].
      + unfold F2R; simpl. now rewrite Rmult_1_r.
      + change (Zpower radix2 prec) with (2 ^ prec). lia. }
  exact F.
Qed.

Lemma format_bpow e : (3 - emax - prec <= e - prec + 1)%Z -> (3 - emax - prec <= e)%Z ->
   generic_format radix2 fexp (bpow radix2 e).
Proof. intros. apply generic_format_bpow. unfold fexp, SpecFloat.fexp, SpecFloat.emin. assert (0 < prec) by exact Hp. lia. Qed.

End Generic.

Notation rd := (gr 53 1024).
Notation rf := (gr 24 128).

(** ** double *)

Definition isd (x : f64) (r : R) : Prop := is_finite x = true /\ B2R x = r.

Lemma rd_IZR z : Z.abs z <= 9007199254740992 -> rd (IZR z) = IZR z.
Proof. intros. apply gr_format; auto with typeclass_instances. apply format_IZR; try exact prec64; try lia; change (2 ^ 53) with 9007199254740992; lia. Qed.

Lemma rd_bound r : (Rabs r <= bpow radix2 1000)%R -> (Rabs (rd r) <= bpow radix2 1000)%R.
Proof.
  intros H. apply Rabs_le. apply Rabs_le_inv in H. destruct H as [H1 H2].
  assert (F : rd (bpow radix2 1000) = bpow radix2 1000).
  { apply gr_format; auto with typeclass_instances. apply format_bpow; try exact prec64; lia. }
  assert (F' : rd (- bpow radix2 1000) = (- bpow radix2 1000)%R).
  { apply gr_format; auto with typeclass_instances. apply generic_format_opp. apply format_bpow; try exact prec64; lia. }
  rewrite <- F at 2. rewrite <- F'. split; apply gr_le; auto; exact prec64.
Qed.

Lemma rd_lt_emax r : (Rabs r <= bpow radix2 1000)%R -> Rlt_bool (Rabs (rd r)) (bpow radix2 1024) = true.
Proof.
  intros H. apply Rlt_bool_true. eapply Rle_lt_trans; [apply rd_bound; exact H|]. apply bpow_lt; lia.
Qed.

Lemma rd_le_Z r n : (r <= IZR n)%R -> Z.abs n <= 9007199254740992 -> (rd r <= IZR n)%R.
Proof. intros H Hn. rewrite <- (rd_IZR n Hn). apply gr_le; auto; exact prec64. Qed.
Lemma rd_ge_Z r n : (IZR n <= r)%R -> Z.abs n <= 9007199254740992 -> (IZR n <= rd r)%R.
Proof. intros H Hn. rewrite <- (rd_IZR n Hn). apply gr_le; auto; exact prec64. Qed.

Lemma dadd_R x y a b : isd x a -> isd y b -> (Rabs (a + b) <= bpow radix2 1000)%R ->
  isd (dadd x y) (rd (a + b)).
Proof.
  intros [Fx Rx] [Fy Ry] H. pose proof (Bplus_correct 53 1024 _ _ mode_NE x y Fx Fy) as C.
  rewrite Rx, Ry in C. cbv [round_mode] in C. fold (rd (a + b)) in C. rewrite rd_lt_emax in C by auto.
  destruct C as (C1 & C2 & _). split; auto.
Qed.
Lemma dsub_R x y a b : isd x a -> isd y b -> (Rabs (a - b) <= bpow radix2 1000)%R ->
  isd (dsub x y) (rd (a - b)).
Proof.
  intros [Fx Rx] [Fy Ry] H. pose proof (Bminus_correct 53 1024 _ _ mode_NE x y Fx Fy) as C.
  rewrite Rx, Ry in C. cbv [round_mode] in C. fold (rd (a - b)) in C. rewrite rd_lt_emax in C by auto.
  destruct C as (C1 & C2 & _). split; auto.
Qed.
Lemma dmul_R x y a b : isd x a -> isd y b -> (Rabs (a * b) <= bpow radix2 1000)%R ->
  isd (dmul x y) (rd (a * b)).
Proof.
  intros [Fx Rx] [Fy Ry] H. pose proof (Bmult_correct 53 1024 _ _ mode_NE x y) as C.
  rewrite Rx, Ry in C. cbv [round_mode] in C. fold (rd (a * b)) in C. rewrite rd_lt_emax in C by auto.
  rewrite Fx, Fy in C. destruct C as (C1 & C2 & _). split; auto.
Qed.
Lemma ddiv_R x y a b : isd x a -> isd y b -> b <> 0%R -> (Rabs (a / b) <= bpow radix2 1000)%R ->
  isd (ddiv x y) (rd (a / b)).
Proof.
  intros [Fx Rx] [Fy Ry] Hb H. pose proof (Bdiv_correct 53 1024 _ _ mode_NE x y) as C.
  rewrite Rx, Ry in C. specialize (C Hb). cbv [round_mode] in C. fold (rd (a / b)) in C. rewrite rd_lt_emax in C by auto.
  rewrite Fx in C. destruct C as (C1 & C2 & _). split; auto.
Qed.
Lemma dsqrt_R x a : isd x a -> (0 <= a)%R -> isd (dsqrt x) (rd (sqrt a)).
Proof.
  intros [Fx Rx] Ha. destruct (Bsqrt_correct 53 1024 _ _ mode_NE x) as (C1 & C2 & _).
  rewrite Rx in C1. split; auto. unfold dsqrt. rewrite C2.
  destruct x as [| | |[|] m e Hb]; auto; try discriminate.
  exfalso. simpl in Rx. pose proof (F2R_lt_0 radix2 (Float radix2 (Z.neg m) e)). simpl in H. 
  assert (F2R {| Fnum := Z.neg m; Fexp := e |} < 0)%R by (apply H; reflexivity).
  change (SpecFloat.cond_Zopp true (Z.pos m)) with (Z.neg m) in Rx. lra.
Qed.
Lemma dneg_R x a : isd x a -> isd (dneg x) (- a).
Proof. intros [Fx Rx]. split; [unfold dneg; now rewrite is_finite_Bopp|unfold dneg; now rewrite B2R_Bopp, Rx]. Qed.
Lemma dabs_R x a : isd x a -> isd (dabs x) (Rabs a).
Proof. intros [Fx Rx]. split; [unfold dabs; now rewrite is_finite_Babs|unfold dabs; now rewrite B2R_Babs, Rx]. Qed.

Lemma bpow_big z : Z.abs z <= 2 ^ 100 -> (Rabs (IZR z) <= bpow radix2 1000)%R.
Proof.
  intros H. rewrite <- abs_IZR. apply Rle_trans with (IZR (2 ^ 100)); [now apply IZR_le|].
  change (2 ^ 100) with (Zpower radix2 100). rewrite IZR_Zpower by lia. apply bpow_le; lia.
Qed.
Lemma abs_big r z : (Rabs r <= IZR z)%R -> 0 <= z <= 2 ^ 100 -> (Rabs r <= bpow radix2 1000)%R.
Proof.
  intros H Hz. eapply Rle_trans; [exact H|]. rewrite <- (Rabs_pos_eq (IZR z)).
  - apply bpow_big; lia. - apply IZR_le; lia.
Qed.

Lemma d_of_Z_R z : Z.abs z <= 2 ^ 100 -> isd (d_of_Z z) (rd (IZR z)).
Proof.
  intros Hz. pose proof (binary_normalize_correct 53 1024 _ _ mode_NE z 0 false) as C.
  cbv zeta in C.
  replace (F2R {| Fnum := z; Fexp := 0 |}) with (IZR z) in C.
  2: { unfold F2R; simpl. now rewrite Rmult_1_r. }
  cbv [round_mode] in C. fold (rd (IZR z)) in C. rewrite rd_lt_emax in C by (now apply bpow_big).
  destruct C as (C1 & C2 & _). split; auto.
Qed.
Lemma d_of_Z_exact z : Z.abs z <= 9007199254740992 -> isd (d_of_Z z) (IZR z).
Proof. intros. rewrite <- (rd_IZR z) by auto. apply d_of_Z_R. lia. Qed.

Lemma isd_d0 : isd d0 0.
Proof. split; reflexivity. Qed.
Lemma isd_d1 : isd F.d1 1.
Proof. apply (d_of_Z_exact 1); lia. Qed.

Lemma isd_finite x : is_finite x = true -> isd x (B2R x).
Proof. split; auto. Qed.

Lemma dlt_R x y a b : isd x a -> isd y b -> dlt x y = Rlt_bool a b.
Proof. intros [Fx <-] [Fy <-]. now apply Bltb_correct. Qed.
Lemma dle_R x y a b : isd x a -> isd y b -> dle x y = Rle_bool a b.
Proof. intros [Fx <-] [Fy <-]. now apply Bleb_correct. Qed.
Lemma deq_R x y a b : isd x a -> isd y b -> deq x y = Req_bool a b.
Proof. intros [Fx <-] [Fy <-]. now apply Beqb_correct. Qed.

Lemma btrunc_R x a : isd x a -> Btrunc x = Ztrunc a.
Proof.
  intros [Fx <-]. apply eq_IZR. rewrite Btrunc_correct by exact emax64.
  unfold round, F2R, scaled_mantissa, cexp, FIX_exp; simpl. now rewrite !Rmult_1_r.
Qed.
Lemma trunc_range a lo hi : lo <= 0 -> (IZR lo - 1 < a)%R -> (a < IZR hi + 1)%R -> 0 <= hi -> lo <= Ztrunc a <= hi.
Proof.
  intros Hlo H1 H2 Hhi. destruct (Rle_or_lt 0 a) as [Ha|Ha].
  - rewrite Ztrunc_floor by auto. split.
    + apply Z.le_trans with 0; auto. apply Zfloor_lub. simpl. lra.
    + apply Z.lt_succ_r. apply lt_IZR. rewrite succ_IZR. eapply Rle_lt_trans; [apply Zfloor_lb|exact H2].
  - rewrite Ztrunc_ceil by lra. split.
    + apply Z.lt_pred_le. apply lt_IZR. unfold Z.pred. rewrite plus_IZR. eapply Rlt_le_trans; [|apply Zceil_ub]. lra.
    + apply Z.le_trans with 0; auto. apply Zceil_glb. simpl. lra.
Qed.
Lemma cast_int_R lo hi x a : isd x a -> lo <= 0 -> 0 <= hi -> (IZR lo - 1 < a)%R -> (a < IZR hi + 1)%R ->
  cast_int lo hi x = Ok (Ztrunc a) /\ lo <= Ztrunc a <= hi.
Proof.
  intros Hx Hlo Hhi H1 H2. pose proof (trunc_range a lo hi Hlo H1 H2 Hhi) as T.
  unfold cast_int. rewrite (btrunc_R x a Hx). destruct Hx as [Fx _]. rewrite Fx.
  replace ((lo <=? Ztrunc a) && (Ztrunc a <=? hi)) with true by lia. auto.
Qed.
Lemma to_u8_R x a : isd x a -> (-1 < a < 256)%R -> to_u8 x = Ok (Ztrunc a) /\ 0 <= Ztrunc a <= 255.
Proof. intros Hx H. apply cast_int_R; auto; try lia; simpl; lra. Qed.

Lemma dfloor_R x a : isd x a -> isd (dfloor x) (IZR (Zfloor a)).
Proof.
  intros [Fx <-]. destruct (Bnearbyint_correct 53 1024 _ mode_DN x) as (C1 & C2 & _). split.
  - unfold dfloor. now rewrite C2.
  - unfold dfloor. rewrite C1. unfold round, F2R, scaled_mantissa, cexp, FIX_exp; simpl. now rewrite !Rmult_1_r.
Qed.
Lemma dceil_R x a : isd x a -> isd (dceil x) (IZR (Zceil a)).
Proof.
  intros [Fx <-]. destruct (Bnearbyint_correct 53 1024 _ mode_UP x) as (C1 & C2 & _). split.
  - unfold dceil. now rewrite C2.
  - unfold dceil. rewrite C1. unfold round, F2R, scaled_mantissa, cexp, FIX_exp; simpl. now rewrite !Rmult_1_r.
Qed.

(** Dyadic numbers z * 2^e are exact. *)
Lemma format_dyadic z e : Z.abs z <= 9007199254740992 -> -1074 <= e <= 0 ->
  generic_format radix2 (SpecFloat.fexp 53 1024) (IZR z * bpow radix2 e).
Proof.
  intros Hz He. destruct (Z.eq_dec z 0) as [->|Hz0].
  { rewrite Rmult_0_l. apply generic_format_0. }
  destruct (Z.eq_dec (Z.abs z) 9007199254740992) as [E|E].
  - replace (IZR z) with (IZR (z / 9007199254740992) * bpow radix2 53)%R.
    + rewrite Rmult_assoc, <- bpow_plus.
      apply generic_format_FLT with (prec := 53) (emin := -1074).
      apply FLT_spec with (Float radix2 (z / 9007199254740992) (53 + e)); cbn [Fexp Fnum]; auto; try lia.
      assert (z = 9007199254740992 \/ z = -9007199254740992) as [-> | ->] by lia; reflexivity.
    + assert (z = 9007199254740992 \/ z = -9007199254740992) as [-> | ->] by lia;
      [change (9007199254740992 / 9007199254740992)%Z with 1%Z|change (-9007199254740992 / 9007199254740992)%Z with (-1)%Z]; simpl; lra.
  - apply generic_format_FLT with (prec := 53) (emin := -1074).
    apply FLT_spec with (Float radix2 z e); cbn [Fexp Fnum]; auto; try lia.
    change (radix2 ^ 53) with 9007199254740992. lia.
Qed.
Lemma rd_dyadic z e : Z.abs z <= 9007199254740992 -> -1074 <= e <= 0 ->
  rd (IZR z * bpow radix2 e) = (IZR z * bpow radix2 e)%R.
Proof. intros. apply gr_format. now apply format_dyadic. Qed.

(** Absolute rounding error. *)
Lemma rd_err r k : -1000 <= k <= 1000 -> (Rabs r <= bpow radix2 k)%R ->
  (Rabs (rd r - r) <= bpow radix2 (k - 53))%R.
Proof.
  intros Hk Hr. unfold gr.
  assert (V : Valid_exp (SpecFloat.fexp 53 1024)) by (apply vfexp; exact prec64).
  assert (Mo : Monotone_exp (SpecFloat.fexp 53 1024)).
  { intros a b Hab. unfold SpecFloat.fexp. lia. }
  eapply Rle_trans; [apply error_le_half_ulp; auto|].
  assert (U : (ulp radix2 (SpecFloat.fexp 53 1024) r <= bpow radix2 (k - 52))%R).
  { replace (bpow radix2 (k - 52)) with (ulp radix2 (SpecFloat.fexp 53 1024) (bpow radix2 k)).
    - apply ulp_le; auto. rewrite (Rabs_pos_eq (bpow radix2 k)); auto. apply bpow_ge_0.
    - rewrite ulp_bpow. f_equal. unfold SpecFloat.fexp, SpecFloat.emin. lia. }
  replace (k - 52)%Z with (1 + (k - 53))%Z in U by ring. rewrite bpow_plus in U. change (bpow radix2 1) with 2%R in U.
  lra.
Qed.
Lemma rd_near r k b : -1000 <= k <= 1000 -> b = bpow radix2 k -> (Rabs r <= b)%R ->
  (r - b * bpow radix2 (-53) <= rd r <= r + b * bpow radix2 (-53))%R.
Proof.
  intros Hk -> Hr. pose proof (rd_err r k Hk Hr) as E. unfold Z.sub in E at 1. rewrite bpow_plus in E.
  apply Rabs_le_inv in E. change (Z.opp 53) with (-53)%Z in E. lra.
Qed.
