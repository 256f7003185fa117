(** * P_Extract: extracting a document *)
From Coq Require Import Reals Lra Psatz String.
From Flocq Require Import Core BinarySingleNaN.
From Verif Require Import Base BaseLemmas F FLemmas FLemmas32 Heap HeapLemmas Spec Spec_Draw Spec_Cli Spec_Blur Spec_Parse
  M_Color M_Parse M_Cli P_Cli Spec_Corners Spec_Detect M_Detect M_Apply Spec_Morph Spec_Apply P_ApplyA P_ApplyB P_Apply P_Apply2 Spec_Doc P_Doc.
From Verif Require Import M_Persp Spec_Persp P_Persp P_Solve Spec_Extract.
Local Open Scope string_scope.
Local Open Scope list_scope.
Local Open Scope Z_scope.

(** ** The matrix *)
Lemma identity_like m : matrix m -> is_identity m = true -> like_identity m.
Proof.
  intros [L F] E i Hi. unfold is_identity in E. rewrite !andb_true_iff in E.
  destruct E as [[[[[[[[E0 E1] E2] E3] E4] E5] E6] E7] E8].
  assert (K : forall k v r, (k < 9)%nat -> isd v r -> deq (mc m k) v = true -> entry m k = r).
  { intros k v r Hk V D. unfold mc in D. rewrite Forall_forall in F.
    assert (Fk : is_finite (nth k m d0) = true) by (apply F; apply nth_In; rewrite L; exact Hk).
    rewrite (deq_R _ _ _ _ (isd_finite _ Fk) V) in D.
    destruct (Req_bool_spec (B2R (nth k m d0)) r) as [Q|Q]; [exact Q|discriminate]. }
  assert (D0 : B2R d0 = 0%R) by reflexivity. assert (D1 : B2R d1 = 1%R) by apply isd_d1.
  assert (C : (i = 0 \/ i = 1 \/ i = 2 \/ i = 3 \/ i = 4 \/ i = 5 \/ i = 6 \/ i = 7 \/ i = 8)%nat) by lia.
  destruct C as [->|[->|[->|[->|[->|[->|[->|[->| ->]]]]]]]]; unfold entry at 2; cbn [nth identity_matrix]; rewrite ?D0, ?D1;
    eapply K; eauto using isd_d0, isd_d1; lia.
Qed.

Lemma extract_ok identity c w h b ow oh s i :
  wf s -> (forall n, orc s n = true) -> 0 < w <= 2147483647 -> 0 < h <= 2147483647 -> w * h <= 536870911 ->
  fair_size ow oh -> holds s (Ptr i) b -> image (w * h * 4) b -> holds_mat s identity identity_matrix ->
  extracts identity c w h b ow oh s ((p <-- extract_with identity w h (Ptr i) ow oh c ;; ret (p, ow, oh)) s).
Proof.
  intros W OT Hw Hh Hs (F1 & F2 & F3) Hp Hb (ip & -> & Mi).
  assert (U : u32 (ow - 1) = ow - 1 /\ u32 (oh - 1) = oh - 1) by (split; apply u32_small; lia). destruct U as [Uw Uh].
  unfold extracts, corner_matrix. cbv zeta. unfold extract_with, dst_corners, quad. rewrite Uw, Uh. rewrite !s32_cli by lia.
  set (src := mkcorners (d0, d0) _ _ _). set (dst := mkcorners (tl c) _ _ _).
  destruct (calculate_ok (Ptr ip) (Some src) (Some dst) s W) as [E|[(pm & s2 & m & E & L2 & N2 & M2 & (BM & _) & O2)|E]].
  - (* the static identity *)
    exists ip, identity_matrix. split; [exists s; split; [exact E|exact Mi]|]. intros T NH.
    unfold falls_back in E. unfold bindM at 1. rewrite (bindM_Ok _ _ _ _ _ E). cbn [is_null].
    destruct (apply_matrix_ok w h ow oh s (Ptr i) (Ptr ip) b identity_matrix ltac:(lia) ltac:(lia) ltac:(lia) F1 F2 ltac:(lia) W Hp Hb ltac:(exists ip; auto) T NH)
      as (q & s3 & E3 & L3 & K3). rewrite (bindM_Ok _ _ _ _ _ E3).
    destruct q as [|q]; [destruct K3 as [_ (n & _ & F)]; rewrite OT in F; discriminate F|].
    destruct K3 as (N3 & (b' & M3 & X3) & O3).
    assert (Ni : ip <> q) by (intros ->; congruence).
    assert (G : get_mat (Ptr ip) s3 = Ok (identity_matrix, s3)).
    { unfold get_mat, bindM, get_obj. rewrite O3 by exact Ni. rewrite Mi. reflexivity. }
    rewrite (bindM_Ok _ _ _ _ _ G). replace (is_identity identity_matrix) with true by (vm_compute; reflexivity). cbn [negb].
    exists q, s3, b'. split; [reflexivity|]. split; [exact L3|]. split; [exact N3|]. split; [exact M3|]. split; [exact X3|].
    split; [intros; apply O3; auto|]. left. apply O3. exact Ni.
  - (* a new matrix *)
    exists pm, m. split; [exists s2; split; [exact E|exact M2]|]. intros T NH.
    unfold bindM at 1. rewrite (bindM_Ok _ _ _ _ _ E). cbn [is_null].
    assert (Hp2 : holds s2 (Ptr i) b).
    { destruct Hp as (j & [= <-] & Mj). exists i. split; [reflexivity|]. rewrite O2; [exact Mj|]. intros ->. congruence. }
    assert (OT2 : forall n, orc s2 n = true) by (intros n; replace (orc s2) with (orc s) by (symmetry; apply L2); apply OT).
    destruct (apply_matrix_ok w h ow oh s2 (Ptr i) (Ptr pm) b m ltac:(lia) ltac:(lia) ltac:(lia) F1 F2 ltac:(lia) (proj1 L2) Hp2 Hb ltac:(exists pm; auto) T NH)
      as (q & s3 & E3 & L3 & K3). rewrite (bindM_Ok _ _ _ _ _ E3).
    destruct q as [|q]; [destruct K3 as [_ (n & _ & F)]; rewrite OT2 in F; discriminate F|].
    destruct K3 as (N3 & (b' & M3 & X3) & O3).
    assert (Ni : pm <> q) by (intros ->; congruence).
    assert (G : get_mat (Ptr pm) s3 = Ok (m, s3)).
    { unfold get_mat, bindM, get_obj. rewrite O3 by exact Ni. rewrite M2. reflexivity. }
    assert (M3p : mem s3 pm = Some (OMat m)) by (rewrite O3 by exact Ni; exact M2).
    assert (Nq : mem s q = None) by (rewrite <- O2 by auto; exact N3).
    rewrite (bindM_Ok _ _ _ _ _ G). destruct (is_identity m) eqn:EI; cbn [negb].
    + exists q, s3, b'. split; [reflexivity|]. split; [eapply later_trans; eauto|]. split; [exact Nq|]. split; [exact M3|]. split; [exact X3|].
      split; [intros j H1 H2; rewrite O3 by auto; apply O2; auto|]. right. apply identity_like; auto.
    + rewrite (bindM_Ok _ _ _ _ _ (free_ok _ _ _ M3p)).
      eexists q, _, b'. split; [reflexivity|]. split; [apply later_upd; eapply later_trans; eauto|]. split; [exact Nq|].
      cbn [mem]. split; [rewrite upd_other by auto; exact M3|]. split; [exact X3|].
      split; [intros j H1 H2; rewrite upd_other by auto; rewrite O3 by auto; apply O2; auto|].
      left. rewrite upd_same. symmetry. exact N2.
  - rewrite OT in E. discriminate E.
Qed.

(** ** Lengths of sides *)
Lemma rd_nonneg x : (0 <= x <= bpow radix2 1000)%R ->
  (x * (1 - ud) - 1 / 1000000000000 <= rd x <= x * (1 + ud) + 1 / 1000000000000)%R.
Proof.
  intros [H0 H1]. destruct (Rle_dec (bpow radix2 (-1000)) x) as [G|G].
  - pose proof (rd_relative x (or_intror G)). lra.
  - pose proof (rd_near x (-100) (bpow radix2 (-100)) ltac:(lia) eq_refl) as N. rewrite Rabs_pos_eq in N by lra.
    assert (S : (bpow radix2 (-1000) <= bpow radix2 (-100))%R) by (apply bpow_le; lia).
    assert (S2 : (bpow radix2 (-100) = / 1267650600228229401496703205376)%R) by reflexivity.
    change (bpow radix2 (-53)) with (/ 9007199254740992)%R in N. rewrite S2 in *. specialize (N ltac:(lra)). unfold ud. lra.
Qed.

Lemma sqrt_shift d1 d2 e1 e2 t : (0 <= t)%R -> (Rabs (e1 - d1) <= t)%R -> (Rabs (e2 - d2) <= t)%R ->
  (sqrt (e1 * e1 + e2 * e2) <= sqrt (d1 * d1 + d2 * d2) + 2 * t)%R.
Proof.
  intros Ht H1 H2. set (D := sqrt (d1 * d1 + d2 * d2)).
  assert (P : (0 <= d1 * d1 + d2 * d2)%R) by nra.
  assert (DD : (D * D = d1 * d1 + d2 * d2)%R) by (apply sqrt_def; exact P). assert (D0 : (0 <= D)%R) by apply sqrt_pos.
  assert (A1 : (Rabs d1 <= D)%R) by (apply Rsqr_incr_0_var; [unfold Rsqr; rewrite <- Rabs_mult, (Rabs_pos_eq (d1 * d1)) by nra; nra|exact D0]).
  assert (A2 : (Rabs d2 <= D)%R) by (apply Rsqr_incr_0_var; [unfold Rsqr; rewrite <- Rabs_mult, (Rabs_pos_eq (d2 * d2)) by nra; nra|exact D0]).
  replace (D + 2 * t)%R with (sqrt ((D + 2 * t) * (D + 2 * t))) by (apply sqrt_square; lra). apply sqrt_le_1; [nra|nra|].
  apply Rabs_le_inv in H1, H2, A1, A2.
  assert (M : forall d e, (- D <= d <= D)%R -> (- t <= e - d <= t)%R -> (e * e <= d * d + 2 * t * D + t * t)%R).
  { clear -Ht D0. intros d e Hd He. set (x := (e - d)%R) in *. replace e with (d + x)%R by (unfold x; ring). clearbody x.
    assert (x * x <= t * t)%R by nra. assert (d * x <= D * t)%R.
    { destruct (Rle_dec 0 d); [|assert (0 <= (- d) <= D)%R by lra; assert (- x <= t)%R by lra;
        replace (d * x)%R with ((- d) * (- x))%R by ring; destruct (Rle_dec 0 (- x)); [apply Rmult_le_compat; lra|nra]].
      destruct (Rle_dec 0 x); [apply Rmult_le_compat; lra|nra]. }
    nra. }
  pose proof (M d1 e1 A1 H1). pose proof (M d2 e2 A2 H2). nra.
Qed.

Lemma sqrt_close S E : (0 <= S)%R -> (0 <= E <= 2000000000)%R ->
  (E * E * (1 - 2 / 1000000000000000) - 3 / 1000000000000 <= S <= E * E * (1 + 2 / 1000000000000000) + 4 / 1000000000000)%R ->
  (E - 1 / 50000 <= sqrt S <= E + 1 / 50000)%R.
Proof.
  intros HS HE [L U]. split.
  - destruct (Rle_dec (E - 1 / 50000) 0) as [N|N]; [pose proof (sqrt_pos S); lra|].
    replace (E - 1 / 50000)%R with (sqrt ((E - 1 / 50000) * (E - 1 / 50000))) by (apply sqrt_square; lra).
    apply sqrt_le_1; [nra|exact HS|]. eapply Rle_trans; [|exact L].
    assert (E * (E * (2 / 1000000000000000)) <= E * (4000000000 / 1000000000000000))%R by (apply Rmult_le_compat_l; lra). nra.
  - replace (E + 1 / 50000)%R with (sqrt ((E + 1 / 50000) * (E + 1 / 50000))) by (apply sqrt_square; lra).
    apply sqrt_le_1; [exact HS|nra|]. eapply Rle_trans; [exact U|].
    assert (E * (E * (2 / 1000000000000000)) <= E * (4000000000 / 1000000000000000))%R by (apply Rmult_le_compat_l; lra). nra.
Qed.

Lemma diff_R x y n : dfinite x = true -> dfinite y = true -> (0 < B2R x < n)%R -> (0 < B2R y < n)%R -> (n <= 1073741824)%R ->
  isd (dsub x y) (rd (B2R x - B2R y)) /\ (Rabs (rd (B2R x - B2R y) - (B2R x - B2R y)) <= 1 / 8000000)%R /\
  (Rabs (rd (B2R x - B2R y)) <= 1073741824)%R.
Proof.
  intros Fx Fy Rx Ry Hn. assert (A : (Rabs (B2R x - B2R y) <= 1073741824)%R) by (apply Rabs_le; lra). split; [|split].
  - apply dsub_R; [apply isd_finite; exact Fx|apply isd_finite; exact Fy|]. apply (abs_big _ 1073741824); [exact A|lia].
  - pose proof (rd_near (B2R x - B2R y) 30 1073741824 ltac:(lia) eq_refl A) as N. change (bpow radix2 (-53)) with (/ 9007199254740992)%R in N.
    apply Rabs_le. lra.
  - apply Rabs_le_inv in A. apply Rabs_le. split; [apply (rd_ge_Z _ (-1073741824))|apply rd_le_Z]; (lra || lia).
Qed.

Section Side.
Variable pow2 : f64 -> f64.
Hypothesis Hpow : pow2_ok pow2.

Lemma side_R w h p q : 0 < w <= 536870911 -> 0 < h <= 536870911 -> on_picture w h p -> on_picture w h q ->
  exists a, isd (side pow2 p q) a /\ (Rabs (a - dist p q) <= 1 / 1000)%R /\ (0 <= a <= 2000000000)%R.
Proof.
  intros Hw Hh (P1 & P2 & P3 & P4) (Q1 & Q2 & Q3 & Q4).
  assert (Rw : (IZR w <= 1073741824)%R) by (apply IZR_le; lia). assert (Rh : (IZR h <= 1073741824)%R) by (apply IZR_le; lia).
  destruct (diff_R (fst p) (fst q) (IZR w) P1 Q1 P3 Q3 Rw) as (X1 & X2 & X3).
  destruct (diff_R (snd p) (snd q) (IZR h) P2 Q2 P4 Q4 Rh) as (Y1 & Y2 & Y3).
  unfold side, dist. cbv zeta.
  set (dx := (B2R (fst p) - B2R (fst q))%R) in *. set (dy := (B2R (snd p) - B2R (snd q))%R) in *.
  set (ex := rd dx) in *. set (ey := rd dy) in *.
  destruct X1 as [FX RX]. destruct Y1 as [FY RY].
  destruct (Hpow _ FX) as (A1 & A2 & A3); [rewrite RX; lra|]. destruct (Hpow _ FY) as (B1 & B2 & B3); [rewrite RY; lra|].
  rewrite RX in A3. rewrite RY in B3. set (u := B2R (pow2 (dsub (fst p) (fst q)))) in *. set (v := B2R (pow2 (dsub (snd p) (snd q)))) in *.
  assert (EX : (0 <= ex * ex <= 1152921504606846976)%R).
  { split; [nra|]. rewrite <- (Rabs_pos_eq (ex * ex)) by nra. rewrite Rabs_mult. pose proof (Rabs_pos ex). nra. }
  assert (EY : (0 <= ey * ey <= 1152921504606846976)%R).
  { split; [nra|]. rewrite <- (Rabs_pos_eq (ey * ey)) by nra. rewrite Rabs_mult. pose proof (Rabs_pos ey). nra. }
  apply Rabs_le_inv in A3, B3.
  assert (UV : (0 <= u + v <= 10000000000000000000)%R) by lra.
  assert (BIG : (10000000000000000000 <= bpow radix2 1000)%R).
  { apply Rle_trans with (bpow radix2 100); [|apply bpow_le; lia]. change (bpow radix2 100) with 1267650600228229401496703205376%R. lra. }
  assert (S1 : isd (dadd (pow2 (dsub (fst p) (fst q))) (pow2 (dsub (snd p) (snd q)))) (rd (u + v))).
  { apply dadd_R; [apply isd_finite; exact A1|apply isd_finite; exact B1|]. rewrite Rabs_pos_eq by (fold u v; lra). fold u v. lra. }
  pose proof (rd_nonneg (u + v) ltac:(lra)) as S2.
  assert (S0 : (0 <= rd (u + v))%R) by (apply (rd_ge_Z _ 0); [lra|lia]).
  set (S := rd (u + v)) in *. set (E := sqrt (ex * ex + ey * ey)).
  assert (EE : (E * E = ex * ex + ey * ey)%R) by (apply sqrt_def; lra).
  assert (E0 : (0 <= E)%R) by apply sqrt_pos.
  assert (E1 : (E <= 1600000000)%R).
  { apply Rsqr_incr_0_var; [|lra]. unfold Rsqr. lra. }
  assert (C : (E - 1 / 50000 <= sqrt S <= E + 1 / 50000)%R).
  { apply sqrt_close; [exact S0|lra|]. unfold ud in S2. lra. }
  assert (D1 : (E <= sqrt (dx * dx + dy * dy) + 2 * (1 / 8000000))%R) by (apply sqrt_shift; [lra|exact X2|exact Y2]).
  assert (D2 : (sqrt (dx * dx + dy * dy) <= E + 2 * (1 / 8000000))%R) by (apply sqrt_shift; [lra|rewrite Rabs_minus_sym; exact X2|rewrite Rabs_minus_sym; exact Y2]).
  exists (rd (sqrt S)). split; [apply dsqrt_R; [exact S1|exact S0]|].
  pose proof (sqrt_pos S) as SP.
  pose proof (rd_near (sqrt S) 31 2147483648 ltac:(lia) eq_refl) as N. rewrite Rabs_pos_eq in N by lra. specialize (N ltac:(lra)).
  change (bpow radix2 (-53)) with (/ 9007199254740992)%R in N.
  split; [apply Rabs_le; lra|]. split; [apply (rd_ge_Z _ 0); [lra|lia]|lra].
Qed.

Lemma output_size_R x y a b d e : isd x a -> isd y b -> (0 <= a <= 2000000000)%R -> (0 <= b <= 2000000000)%R ->
  (Rabs (a - d) <= 1 / 1000)%R -> (Rabs (b - e) <= 1 / 1000)%R ->
  exists n, output_size x y = Ok n /\ size_for (Rmax d e) n.
Proof.
  intros X Y Ha Hb Hd He.
  assert (FM : isd (fmax x y) (Rmax a b)).
  { unfold fmax. destruct X as [FX RX]. destruct Y as [FY RY].
    replace (is_nan x) with false by (destruct x; [reflexivity..|discriminate FX|reflexivity]).
    replace (is_nan y) with false by (destruct y; [reflexivity..|discriminate FY|reflexivity]).
    rewrite (dlt_R _ _ _ _ (conj FX RX) (conj FY RY)). destruct (Rlt_bool_spec a b).
    - rewrite Rmax_right by lra. split; assumption.
    - rewrite Rmax_left by lra. split; assumption. }
  assert (M : (0 <= Rmax a b <= 2000000000)%R) by (split; [eapply Rle_trans; [apply Ha|apply Rmax_l]|apply Rmax_lub; lra]).
  assert (DM : (Rabs (Rmax a b - Rmax d e) <= 1 / 1000)%R).
  { apply Rabs_le_inv in Hd, He. apply Rabs_le. unfold Rmax. destruct (Rle_dec a b), (Rle_dec d e); lra. }
  set (m := Rmax a b) in *. set (t := Rmax d e) in *. clearbody m t.
  assert (HF : isd (lit 1 2) (1 / 2)).
  { split; [vm_compute; reflexivity|]. assert (E : lit 1 2 = @B754_finite 53 1024 false 4503599627370496 (-53) eq_refl) by (apply B2SF_inj; vm_compute; reflexivity).
    rewrite E. cbn [B2R]. unfold F2R. cbn [cond_Zopp Fnum Fexp bpow]. change (Z.pow_pos radix2 53) with 9007199254740992. lra. }
  assert (A : isd (dadd (fmax x y) (lit 1 2)) (rd (m + 1 / 2))).
  { apply dadd_R; auto. apply (abs_big _ 2000000001); [rewrite Rabs_pos_eq by lra; lra|lia]. }
  pose proof (rd_near (m + 1 / 2) 31 2147483648 ltac:(lia) eq_refl) as N. rewrite Rabs_pos_eq in N by lra. specialize (N ltac:(lra)).
  change (bpow radix2 (-53)) with (/ 9007199254740992)%R in N.
  set (z := rd (m + 1 / 2)) in *.
  destruct (cast_int_R 0 4294967295 _ _ A) as [E R]; [lia|lia|lra|lra|].
  unfold output_size, to_u32. rewrite E. cbn [bind].
  eexists. split; [reflexivity|]. exists (Ztrunc z).
  assert (Z0 : (0 <= z)%R) by lra. rewrite Ztrunc_floor by exact Z0. pose proof (Zfloor_lb z). pose proof (Zfloor_ub z).
  apply Rabs_le_inv in DM. split; [apply Rabs_le; lra|]. destruct (Z.ltb_spec (Zfloor z) 100); lia.
Qed.
End Side.

Lemma dist_sym p q : dist p q = dist q p.
Proof. unfold dist. cbv zeta. f_equal. ring. Qed.

Lemma extracts_sized identity c w h b ow oh s (m : M (ptr * Z * Z)) : fair_size ow oh ->
  extracts identity c w h b ow oh s (m s) -> extracts identity c w h b ow oh s ((r <-- m ;; ret (sized w h r)) s).
Proof.
  intros (F1 & F2 & _) (pm & mt & CM & K). exists pm, mt. split; [exact CM|]. intros T N. destruct (K T N) as (q & s' & b' & E & R).
  exists q, s', b'. split; [|exact R]. rewrite (bindM_Ok _ _ _ _ _ E). unfold sized. cbn [is_null]. rewrite !s32_cli by lia. reflexivity.
Qed.

Lemma leaks_mat s s1 p m : leaks_two s s1 -> holds_mat s p m -> holds_mat s1 p m.
Proof.
  intros (j & k & _ & Nj & Nk & _ & _ & O) (i & -> & M). exists i. split; [reflexivity|]. rewrite O; [exact M| |]; intros ->; congruence.
Qed.

Section Ops.
Variables (atof : cstr -> f64) (exp : f64 -> f64) (at2 : f64 -> f64 -> f64) (asin pow2 : f64 -> f64) (fuel : nat) (identity : ptr).
Variables (o : pipeline_op) (w h : Z) (s : st) (p : ptr) (b : buf Z).
Hypothesis He : exp_ok exp.
Hypothesis Ha : atan2_ok at2.
Hypothesis Hf : 66565 < Z.of_nat fuel.
Hypothesis HU : usual w h.
Hypothesis Hs : w * h <= 536870911.
Hypothesis W : wf s.
Hypothesis Hp : holds s p b.
Hypothesis Hb : image (w * h * 4) b.
Hypothesis OT : forall n, orc s n = true.
Hypothesis Hi : holds_mat s identity identity_matrix.

Lemma do_extract_to x y : named o "extract_document_to" -> op_p1 o = Some x -> op_p2 o = Some y ->
  dfinite x = true -> dfinite y = true -> fair_size (int_part x) (int_part y) ->
  looks at2 asin w h b s (apply_operation atof exp at2 asin pow2 fuel identity o w h p s)
    (fun c s1 run => extracts identity c w h b (int_part x) (int_part y) s1 run).
Proof.
  intros N P1 P2 F1 F2 FS. pose proof HU as (U1 & U2 & U3). pose proof FS as (S1 & S2 & S3). start N.
  assert (E0 : is_null p = false) by (destruct Hp as (i & -> & _); reflexivity).
  unfold extract_to_op. rewrite P1, P2. cbn [given negb orb num].
  rewrite (bindM_lift _ _ _ _ (to_u32_ok x F1 ltac:(unfold is_u32; lia))), (bindM_lift _ _ _ _ (to_u32_ok y F2 ltac:(unfold is_u32; lia))).
  rewrite (proj1 (usual_u32 w h HU)), (proj2 (usual_u32 w h HU)).
  unfold extract_document. rewrite E0. rewrite !s32_cli by lia.
  eapply looks_weaken; [apply (detect_cases exp at2 asin fuel w h s p b He Ha ltac:(lia) ltac:(lia) U3 Hf W Hp Hb OT)|..].
  - intros E. unfold bindM at 1. unfold bindM at 1. rewrite E. reflexivity.
  - intros u E. unfold bindM at 1. unfold bindM at 1. rewrite E. reflexivity.
  - intros c s1 C La Le E. unfold bindM at 1. rewrite (bindM_Ok _ _ _ _ _ E).
    pose proof Hp as (i & Ei & _). rewrite Ei in *.
    assert (K := extracts_sized _ _ _ _ _ _ _ _ _ FS (extract_ok identity c w h b (int_part x) (int_part y) s1 i (proj1 La)
      ltac:(intros n; replace (orc s1) with (orc s) by (symmetry; apply La); apply OT) ltac:(lia) ltac:(lia) Hs FS
      (leaks_holds _ _ _ _ Le Hp) Hb (leaks_mat _ _ _ _ Le Hi))).
    match goal with |- extracts _ _ _ _ _ _ _ _ ?r => replace r with
      ((rr <-- (p <-- extract_with identity w h (Ptr i) (int_part x) (int_part y) c ;; ret (p, int_part x, int_part y)) ;; ret (sized w h rr)) s1) end;
      [exact K|]. unfold bindM. destruct (extract_with _ _ _ _ _ _ _ s1) as [[? ?]| | |]; reflexivity.
Qed.

Lemma do_extract : pow2_ok pow2 -> named o "extract_document" ->
  looks at2 asin w h b s (apply_operation atof exp at2 asin pow2 fuel identity o w h p s)
    (fun c s1 run => exists ow oh, document_size c ow oh /\ (fair_size ow oh -> extracts identity c w h b ow oh s1 run)).
Proof.
  intros Hpow N. pose proof HU as (U1 & U2 & U3). start N.
  assert (E0 : is_null p = false) by (destruct Hp as (i & -> & _); reflexivity).
  unfold extract_auto_op.
  rewrite (proj1 (usual_u32 w h HU)), (proj2 (usual_u32 w h HU)).
  unfold extract_document_auto. rewrite E0. rewrite !s32_cli by lia.
  eapply looks_weaken; [apply (detect_cases exp at2 asin fuel w h s p b He Ha ltac:(lia) ltac:(lia) U3 Hf W Hp Hb OT)|..].
  - intros E. unfold bindM at 1. unfold bindM at 1. rewrite E. reflexivity.
  - intros u E. unfold bindM at 1. unfold bindM at 1. rewrite E. reflexivity.
  - intros c s1 C La Le E.
    destruct (corners_position at2 asin w h b c ltac:(lia) ltac:(lia) U3 C) as [ON _]. rewrite Forall_forall in ON.
    assert (O1 := ON (tl c) ltac:(cbn; auto)). assert (O2 := ON (tr c) ltac:(cbn; auto)).
    assert (O3 := ON (br c) ltac:(cbn; auto)). assert (O4 := ON (bl c) ltac:(cbn; auto)).
    destruct (side_R pow2 Hpow w h (tr c) (tl c) U1 U2 O2 O1) as (a1 & A1 & B1 & R1).
    destruct (side_R pow2 Hpow w h (br c) (bl c) U1 U2 O3 O4) as (a2 & A2 & B2 & R2).
    destruct (side_R pow2 Hpow w h (bl c) (tl c) U1 U2 O4 O1) as (a3 & A3 & B3 & R3).
    destruct (side_R pow2 Hpow w h (br c) (tr c) U1 U2 O3 O2) as (a4 & A4 & B4 & R4).
    destruct (output_size_R _ _ _ _ _ _ A1 A2 R1 R2 B1 B2) as (ow & Eow & Sow).
    destruct (output_size_R _ _ _ _ _ _ A3 A4 R3 R4 B3 B4) as (oh & Eoh & Soh).
    exists ow, oh. split.
    { split; [rewrite (dist_sym (tl c)), (dist_sym (bl c)); exact Sow|].
      rewrite (dist_sym (tl c)), (dist_sym (tr c)). exact Soh. }
    intros FS.
    pose proof Hp as (i & Ei & _). rewrite Ei in *.
    assert (K := extracts_sized _ _ _ _ _ _ _ _ _ FS (extract_ok identity c w h b ow oh s1 i (proj1 La)
      ltac:(intros n; replace (orc s1) with (orc s) by (symmetry; apply La); apply OT) ltac:(lia) ltac:(lia) Hs FS
      (leaks_holds _ _ _ _ Le Hp) Hb (leaks_mat _ _ _ _ Le Hi))).
    match goal with |- extracts _ _ _ _ _ _ _ _ ?r => replace r with
      ((rr <-- (p <-- extract_with identity w h (Ptr i) ow oh c ;; ret (p, ow, oh)) ;; ret (sized w h rr)) s1); [exact K|] end.
    symmetry. unfold bindM at 1. rewrite (bindM_Ok _ _ _ _ _ E). rewrite (bindM_lift _ _ _ _ Eow), (bindM_lift _ _ _ _ Eoh). reflexivity.
Qed.
End Ops.

(** The square, correctly rounded, is a possible pow(x, 2). *)
Lemma square_ok : pow2_ok (fun x => dmul x x).
Proof.
  intros x F A. pose proof (isd_finite x F) as X. set (r := B2R x) in *.
  assert (R2 : (0 <= r * r <= 4611686018427387904)%R).
  { split; [nra|]. rewrite <- (Rabs_pos_eq (r * r)) by nra. rewrite Rabs_mult. pose proof (Rabs_pos r). nra. }
  assert (D : isd (dmul x x) (rd (r * r))) by (apply dmul_R; auto; apply (abs_big _ 4611686018427387904); [rewrite Rabs_pos_eq by lra; lra|lia]).
  destruct D as [F' E]. split; [exact F'|]. rewrite E. split; [apply (rd_ge_Z _ 0); [lra|lia]|].
  assert (B : (4611686018427387904 <= bpow radix2 1000)%R).
  { apply Rle_trans with (bpow radix2 100); [|apply bpow_le; lia]. change (bpow radix2 100) with 1267650600228229401496703205376%R. lra. }
  pose proof (rd_nonneg (r * r) ltac:(lra)) as N. unfold ud in N. apply Rabs_le. lra.
Qed.
