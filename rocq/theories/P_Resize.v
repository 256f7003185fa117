(** * P_Resize: proofs about fcv_resize *)
From Verif Require Import Base BaseLemmas F FLemmas FErr Heap Spec HeapLemmas Spec_Resize M_Resize ExUtil.
From Coq Require Import Reals Psatz.
From Flocq Require Import Core Relative.
Local Open Scope Z_scope.

Local Notation d1 := F.d1.
Local Notation u := (1 / 9007199254740992)%R.
Local Notation e22 := (1 / 4194304)%R.

Lemma half_isd : isd half (1 / 2).
Proof.
  unfold half, lit. replace (1 / 2)%R with (rd (IZR 1 / IZR 2)).
  - apply ddiv_R; try (apply d_of_Z_exact; lia); [lra|]. apply big31. apply Rabs_le. lra.
  - replace (IZR 1 / IZR 2)%R with (IZR 1 * bpow radix2 (-1))%R by (change (bpow radix2 (-1)) with (/2)%R; lra).
    rewrite rd_dyadic by lia. change (bpow radix2 (-1)) with (/2)%R. lra.
Qed.

(** ** One axis *)
Section Axis.
Variables (n : Z) (r : f64) (o : Z).
Hypothesis Hn : 0 < n <= 1073741824.
Hypothesis Hr : factor_ok n r.
Hypothesis Ho : 0 <= o < out_size n r.
Let R := B2R r.
Let q := ((IZR o + 1 / 2) / R)%R.
Let k := (1 / R)%R.

Lemma R_isd : isd r R.
Proof. destruct Hr as (_ & F & _). split; auto. Qed.
Lemma R_pos : (0 < R)%R.
Proof.
  destruct Hr as (P & _). rewrite (dlt_R _ _ 0 R isd_d0 R_isd) in P.
  destruct (Rlt_bool_spec 0 R); [auto|discriminate].
Qed.

Lemma n_R : (1 <= IZR n <= 1073741824)%R.
Proof. split; apply IZR_le; lia. Qed.

Lemma prod_R : isd (dmul (d_of_Z n) r) (rd (IZR n * R)) /\ (rd (IZR n * R) <= 4294967295)%R.
Proof.
  destruct Hr as (_ & _ & L & _). pose proof R_pos as RP. pose proof n_R as NR.
  assert (P0 : (0 <= IZR n * R)%R) by (apply Rmult_le_pos; lra).
  assert (N53 : isd (d_of_Z n) (IZR n)) by (apply d_of_Z_exact; lia).
  assert (B32 : isd (d_of_Z 4294967295) 4294967295) by (apply d_of_Z_exact; lia).
  assert (Fin : (IZR n * R <= bpow radix2 1000)%R).
  { destruct (Rle_or_lt (IZR n * R) (bpow radix2 1000)) as [H|H]; [exact H|exfalso].
    pose proof (Bmult_correct 53 1024 _ _ mode_NE (d_of_Z n) r) as C. destruct N53 as [F1 V1]. destruct R_isd as [F2 V2].
    rewrite V1 in C. fold R in C. rewrite F1, F2 in C. change (round_mode mode_NE) with ZnearestE in C.
    fold (rd (IZR n * R)) in C.
    destruct (Rlt_bool _ _) in C.
    - destruct C as (C1 & C2 & _). assert (D : isd (dmul (d_of_Z n) r) (rd (IZR n * R))) by (split; [exact C2|exact C1]).
      rewrite (dle_R _ _ _ _ D B32) in L. destruct (Rle_bool_spec (rd (IZR n * R)) 4294967295) as [L'|]; [|discriminate].
      assert (bpow radix2 1000 <= rd (IZR n * R))%R.
      { rewrite <- (gr_format 53 1024 (bpow radix2 1000)) by (apply generic_format_bpow; cbn; lia). apply rd_mono. lra. }
      assert (4294967296 <= bpow radix2 1000)%R. { change 4294967296%R with (bpow radix2 32). apply bpow_le. lia. }
      lra.
    - unfold dle in L. unfold dmul in L. destruct (Bmult mode_NE (d_of_Z n) r) as [s0|s0| |s0 m0 e0 H0]; cbn in C; try discriminate.
      assert (Sg : s0 = false).
      { injection C as ->. assert (S1 : Bsign (d_of_Z n) = false). { apply sign_pos. rewrite V1; lra. }
        assert (S2 : Bsign r = false). { apply sign_pos. exact RP. }
        rewrite S1, S2. reflexivity. }
      rewrite Sg in L. destruct B32 as [F3 _]. clear - L F3. destruct (d_of_Z 4294967295); cbn in L; discriminate. }
  assert (D : isd (dmul (d_of_Z n) r) (rd (IZR n * R))).
  { apply dmul_R; auto; [apply R_isd|]. rewrite Rabs_pos_eq; auto. }
  split; auto. rewrite (dle_R _ _ _ _ D B32) in L. destruct (Rle_bool_spec (rd (IZR n * R)) 4294967295); [auto|discriminate].
Qed.

Let oR := (IZR o / R)%R.
Lemma o_R : (0 <= oR /\ 0 < k /\ oR + k <= IZR n + 1 / 8388608 /\ q = oR + k / 2)%R.
Proof.
  destruct prod_R as [D B]. pose proof R_pos as RP. pose proof n_R as NR.
  assert (P0 : (0 <= IZR n * R)%R) by (apply Rmult_le_pos; lra).
  destruct (rd_rel (IZR n * R)) as [_ U]; [apply mult_Z; apply (isd_mult r); apply R_isd|exact P0|].
  assert (O1 : (IZR o + 1 <= rd (IZR n * R))%R).
  { unfold out_size in Ho. rewrite (btrunc_R _ _ D) in Ho.
    assert (0 <= rd (IZR n * R))%R by (rewrite <- rd_0; apply rd_mono; auto).
    rewrite Ztrunc_floor in Ho by auto. rewrite <- plus_IZR. eapply Rle_trans; [|apply Zfloor_lb]. apply IZR_le. lia. }
  assert (Oz : (0 <= IZR o)%R) by (apply IZR_le; lia).
  assert (Ri : (0 < / R)%R) by (apply Rinv_0_lt_compat; auto).
  assert (Q : (oR + k = (IZR o + 1) * / R)%R) by (unfold oR, k; field; lra).
  assert (Q2 : ((IZR o + 1) * / R <= IZR n * (1 + u))%R).
  { apply Rmult_le_reg_r with R; auto. rewrite Rmult_assoc, Rinv_l by lra.
    eapply Rle_trans; [rewrite Rmult_1_r; exact O1|]. eapply Rle_trans; [exact U|]. lra. }
  split. { unfold oR, Rdiv. apply Rmult_le_pos; lra. }
  split. { unfold k. unfold Rdiv. lra. }
  split. { rewrite Q. lra. }
  unfold q, oR, k. field. lra.
Qed.

Lemma src_R : exists a, isd (src_pos o r) a /\ (q - 1 / 2 - 2 * e22 <= a <= q - 1 / 2 + 2 * e22)%R.
Proof.
  destruct o_R as (H1 & H2 & H3 & H4). pose proof n_R as NR. pose proof R_pos as RP.
  assert (O32 : 0 <= o < 4294967296).
  { destruct prod_R as [D B]. unfold out_size in Ho. rewrite (btrunc_R _ _ D) in Ho.
    assert (0 <= rd (IZR n * R))%R by (rewrite <- rd_0; apply rd_mono; apply Rmult_le_pos; lra).
    rewrite Ztrunc_floor in Ho by auto. split; [lia|].
    assert (Zfloor (rd (IZR n * R)) <= 4294967295); [|lia]. apply le_IZR. eapply Rle_trans; [apply Zfloor_lb|exact B]. }
  assert (D1 : isd (dadd (d_of_Z o) half) (IZR o + 1 / 2)).
  { replace (IZR o + 1 / 2)%R with (rd (IZR o + 1 / 2)).
    - apply dadd_R; [apply d_of_Z_exact; lia|apply half_isd|]. apply abs_big with 4294967296; [|lia].
      apply Rabs_le. assert (0 <= IZR o <= 4294967295)%R by (split; apply IZR_le; lia). lra.
    - replace (IZR o + 1 / 2)%R with (IZR (2 * o + 1) * bpow radix2 (-1))%R.
      + apply rd_dyadic; lia.
      + rewrite plus_IZR, mult_IZR. change (bpow radix2 (-1)) with (/ 2)%R. field. }
  assert (Bq : (Rabs q <= 2147483648)%R) by (apply Rabs_le; lra).
  assert (D2 : isd (ddiv (dadd (d_of_Z o) half) r) (rd q)).
  { apply ddiv_R; auto; [apply R_isd|lra|]. apply big31. exact Bq. }
  pose proof (rd_e31 q Bq) as E1.
  assert (Bs : (Rabs (rd q - 1 / 2) <= 2147483648)%R) by (apply Rabs_le; lra).
  exists (rd (rd q - 1 / 2)). split.
  - apply dsub_R; [exact D2|apply half_isd|]. apply big31. exact Bs.
  - pose proof (rd_e31 _ Bs). lra.
Qed.

Lemma near_R i : (Rabs (IZR i - (q - 1 / 2)) <= 1 + k / 2 + 1 / 1000)%R -> near r o i.
Proof.
  intros H. unfold near. fold R. fold q. pose proof R_pos as RP. replace (1 / (2 * R))%R with (k / 2)%R by (unfold k; field; lra).
  replace (IZR i + 1 / 2 - q)%R with (IZR i - (q - 1 / 2))%R by lra. exact H.
Qed.

Local Notation e19 := (1 / 524288)%R.
Lemma window_R : exists a b start end_, window o r n = Ok (start, end_, Z.max 0 (Zfloor a), Z.min n (Zceil b)) /\
  isd start a /\ isd end_ b /\ (oR - 1 / 2 - e19 <= a <= oR - 1 / 2 + e19)%R /\ (oR + k - 1 / 2 - e19 <= b <= oR + k - 1 / 2 + e19)%R.
Proof.
  destruct o_R as (H1 & H2 & H3 & H4). pose proof n_R as NR. pose proof R_pos as RP. destruct src_R as (a0 & D0 & A0).
  assert (Bk : (Rabs k <= 2147483648)%R) by (apply Rabs_le; lra).
  assert (Dk : isd (ddiv d1 r) (rd k)).
  { apply ddiv_R; [apply isd_d1|apply R_isd|lra|]. apply big31. exact Bk. }
  pose proof (rd_e31 k Bk) as Ek.
  assert (Bh : (Rabs (rd k * (1 / 2)) <= 2147483648)%R) by (apply Rabs_le; lra).
  assert (Dh : isd (dmul (ddiv d1 r) half) (rd (rd k * (1 / 2)))).
  { apply dmul_R; auto; [apply half_isd|]. apply big31. exact Bh. }
  pose proof (rd_e31 _ Bh) as Eh.
  assert (Bs : (Rabs (a0 - rd (rd k * (1 / 2))) <= 2147483648)%R) by (apply Rabs_le; lra).
  assert (Be : (Rabs (a0 + rd (rd k * (1 / 2))) <= 2147483648)%R) by (apply Rabs_le; lra).
  pose proof (dsub_R _ _ _ _ D0 Dh (big31 _ Bs)) as Ds. pose proof (dadd_R _ _ _ _ D0 Dh (big31 _ Be)) as De.
  pose proof (rd_e31 _ Bs) as Es. pose proof (rd_e31 _ Be) as Ee.
  set (a := rd (a0 - rd (rd k * (1 / 2)))) in *. set (b := rd (a0 + rd (rd k * (1 / 2)))) in *.
  exists a, b, (dsub (src_pos o r) (dmul (ddiv d1 r) half)), (dadd (src_pos o r) (dmul (ddiv d1 r) half)).
  assert (A : (oR - 1 / 2 - e19 <= a <= oR - 1 / 2 + e19)%R) by lra.
  assert (B : (oR + k - 1 / 2 - e19 <= b <= oR + k - 1 / 2 + e19)%R) by lra.
  split; [|repeat split; try assumption; try apply A; try apply B; try apply Ds; try apply De].
  unfold window. cbv zeta.
  assert (Fa : -1 <= Zfloor a <= 1073741824).
  { split; [apply Zfloor_lub; lra|]. apply le_IZR. eapply Rle_trans; [apply Zfloor_lb|]. lra. }
  assert (Fb : -1 <= Zceil b <= 1073741824 + 1).
  { split; [|apply Zceil_glb; rewrite plus_IZR; lra]. apply le_IZR. eapply Rle_trans; [|apply Zceil_ub]. lra. }
  destruct (cast_int_R INT_MIN INT_MAX _ _ (dfloor_R _ _ Ds)) as [C1 _]; try (unfold INT_MIN, INT_MAX; lia).
  { unfold INT_MIN. apply Rlt_le_trans with (-1)%R; [lra|]. apply IZR_le. lia. }
  { unfold INT_MAX. apply Rle_lt_trans with (1073741824)%R; [apply IZR_le; lia|lra]. }
  destruct (cast_int_R INT_MIN INT_MAX _ _ (dceil_R _ _ De)) as [C2 _]; try (unfold INT_MIN, INT_MAX; lia).
  { unfold INT_MIN. apply Rlt_le_trans with (-1)%R; [lra|]. apply IZR_le. lia. }
  { unfold INT_MAX. apply Rle_lt_trans with (1073741825)%R; [apply IZR_le; lia|lra]. }
  fold a in C1. fold b in C2. unfold to_i32. rewrite C1. cbn [bind]. rewrite C2. cbn [bind].
  rewrite !Ztrunc_IZR. rewrite s32_small by (unfold INT_MIN, INT_MAX; lia). do 2 f_equal.
  - f_equal. destruct (Z.ltb_spec (Zfloor a) 0); lia.
  - destruct (Z.ltb_spec n (Zceil b)); lia.
Qed.

Lemma lin_R : exists a i0 i1 d t, lin_axis o r n = Ok (i0, i1, d) /\ isd (src_pos o r) a /\
  (q - 1 / 2 - 2 * e22 <= a <= q - 1 / 2 + 2 * e22)%R /\
  0 <= i0 < n /\ 0 <= i1 < n /\ near r o i0 /\ near r o i1 /\ isd d t /\ (0 <= t <= 1)%R /\
  i0 = Z.max 0 (Zfloor a) /\ i1 = Z.min (n - 1) (Zfloor a + 1) /\ ((0 <= a)%R -> t = rd (a - IZR (Zfloor a))).
Proof.
  destruct o_R as (H1 & H2 & H3 & H4). pose proof n_R as NR. pose proof R_pos as RP. destruct src_R as (a & D0 & A0).
  pose proof (Zfloor_lb a) as Lb. pose proof (Zfloor_ub a) as Ub.
  assert (Fa : -1 <= Zfloor a <= n - 1).
  { split; [apply Zfloor_lub; lra|]. assert (Zfloor a < n); [|lia]. apply lt_IZR. eapply Rle_lt_trans; [apply Zfloor_lb|]. lra. }
  set (i0 := Z.max 0 (Zfloor a)). set (i1 := Z.min (n - 1) (Zfloor a + 1)).
  assert (I0 : (Rabs (IZR i0 - a) <= 1)%R).
  { unfold i0. destruct (Z.max_spec 0 (Zfloor a)) as [[? ->]|[? ->]].
    - apply Rabs_le; lra.
    - destruct (Z.eq_dec (Zfloor a) 0) as [E|E].
      + rewrite E in *. apply Rabs_le; lra.
      + assert (E' : Zfloor a = -1) by lia. rewrite E' in *. apply Rabs_le; lra. }
  assert (I1 : (Rabs (IZR i1 - a) <= 1)%R).
  { unfold i1. destruct (Z.min_spec (n - 1) (Zfloor a + 1)) as [[? ->]|[? ->]].
    - replace (n - 1) with (Zfloor a) by lia. apply Rabs_le; lra.
    - rewrite plus_IZR. apply Rabs_le; lra. }
  assert (Dd : isd (dsub (src_pos o r) (d_of_Z i0)) (rd (a - IZR i0))).
  { apply dsub_R; auto; [apply d_of_Z_exact; unfold i0; lia|]. apply big31. rewrite Rabs_minus_sym. lra. }
  set (t0 := rd (a - IZR i0)) in *.
  assert (Dc : exists t, isd (let d := dsub (src_pos o r) (d_of_Z i0) in let d := if dlt d d0 then d0 else d in if dlt d1 d then d1 else d) t /\
     (0 <= t <= 1)%R /\ ((0 <= t0 <= 1)%R -> t = t0)).
  { cbv zeta. rewrite (dlt_R _ _ _ _ Dd isd_d0). destruct (Rlt_bool_spec t0 0).
    - rewrite (dlt_R _ _ _ _ isd_d1 isd_d0). rewrite Rlt_bool_false by lra. exists 0%R. split; [apply isd_d0|]. split; lra.
    - rewrite (dlt_R _ _ _ _ isd_d1 Dd). destruct (Rlt_bool_spec 1 t0).
      + exists 1%R. split; [apply isd_d1|]. split; lra.
      + exists t0. split; [exact Dd|]. split; auto. }
  destruct Dc as (t & Dt & T01 & Tt0).
  exists a, i0, i1, (let d := dsub (src_pos o r) (d_of_Z i0) in let d := if dlt d d0 then d0 else d in if dlt d1 d then d1 else d), t.
  split.
  { unfold lin_axis. cbv zeta.
    destruct (cast_int_R INT_MIN INT_MAX _ _ (dfloor_R _ _ D0)) as [C1 _]; try (unfold INT_MIN, INT_MAX; lia).
    { unfold INT_MIN. apply Rlt_le_trans with (-1)%R; [lra|]. apply IZR_le. lia. }
    { unfold INT_MAX. apply Rle_lt_trans with (1073741824)%R; [apply IZR_le; lia|lra]. }
    unfold to_i32. rewrite C1. cbn [bind]. rewrite Ztrunc_IZR. rewrite ck32_ok by (unfold INT_MIN, INT_MAX; lia). cbn [bind].
    rewrite u32_small by lia. rewrite !s32_small by (unfold INT_MIN, INT_MAX; lia).
    replace (if Zfloor a <? 0 then 0 else Zfloor a) with i0 by (unfold i0; destruct (Z.ltb_spec (Zfloor a) 0); lia).
    replace (if n <=? Zfloor a + 1 then n - 1 else Zfloor a + 1) with i1 by (unfold i1; destruct (Z.leb_spec n (Zfloor a + 1)); lia).
    reflexivity. }
  split; [exact D0|]. split; [exact A0|]. split; [unfold i0; lia|]. split; [unfold i1; lia|].
  assert (NR' : forall i, (Rabs (IZR i - a) <= 1)%R -> near r o i).
  { intros i Hi. apply near_R. apply Rabs_le_inv in Hi. apply Rabs_le. lra. }
  split; [apply NR'; apply I0|]. split; [apply NR'; apply I1|]. split; [exact Dt|]. split; [exact T01|].
  split; [reflexivity|]. split; [reflexivity|]. intros Ha.
  assert (E0 : i0 = Zfloor a).
  { unfold i0. assert (0 <= Zfloor a) by (apply Zfloor_lub; auto). lia. }
  rewrite Tt0; unfold t0; rewrite E0; auto. split; [rewrite <- rd_0; apply rd_mono; lra|].
  rewrite <- (rd_IZR 1) by lia. apply rd_mono. lra.
Qed.
End Axis.

(** ** Weighted sums *)
Definition acc (lo hi n : Z) (x t : f64) : Prop :=
  exists r v, isd x r /\ isd t v /\ (0 <= v <= IZR n)%R /\
    (IZR lo * v * (1 - 8 * u * IZR n) <= r <= IZR hi * v * (1 + 8 * u * IZR n))%R.

Lemma byte_R z : byte z -> (0 <= IZR z <= 255)%R.
Proof. intros [A B]. split; apply IZR_le; lia. Qed.

Lemma acc_mono lo hi n m x t : byte lo -> byte hi -> n <= m -> acc lo hi n x t -> acc lo hi m x t.
Proof.
  intros Hl Hh Hnm (r & v & Dx & Dt & V & B). exists r, v. apply byte_R in Hl. apply byte_R in Hh.
  apply IZR_le in Hnm. do 2 (split; [assumption|]). split; [lra|].
  assert (0 <= IZR lo * v)%R by (apply Rmult_le_pos; lra). assert (0 <= IZR hi * v)%R by (apply Rmult_le_pos; lra).
  split; [eapply Rle_trans; [|apply B]|eapply Rle_trans; [apply B|]]; apply Rmult_le_compat_l; auto; lra.
Qed.

Lemma acc_0 lo hi : acc lo hi 0 d0 d0.
Proof. exists 0%R, 0%R. do 2 (split; [apply isd_d0|]). split; [split; lra|]. rewrite !Rmult_0_r, !Rmult_0_l. lra. Qed.

Lemma acc_step lo hi n x t p g gv : byte lo -> byte hi -> 0 <= n < 1073741824 -> acc lo hi n x t -> lo <= p <= hi ->
  isd g gv -> (0 <= gv <= 1)%R -> acc lo hi (n + 1) (dadd x (dmul (d_of_Z p) g)) (dadd t g).
Proof.
  intros Hl Hh Hn (r & v & Dx & Dt & V & B) Hp Dg G.
  assert (Bp : byte p) by (unfold byte in *; lia).
  pose proof (byte_R _ Hl) as RL. pose proof (byte_R _ Hh) as RH. pose proof (byte_R _ Bp) as RP.
  assert (PL : (IZR lo <= IZR p <= IZR hi)%R) by (split; apply IZR_le; lia).
  assert (RN : (0 <= IZR n <= 1073741823)%R) by (split; apply IZR_le; lia).
  pose proof (isd_mult _ _ Dx) as Mx. pose proof (isd_mult _ _ Dt) as Mt. pose proof (isd_mult _ _ Dg) as Mg.
  assert (PG : (0 <= IZR p * gv <= 255)%R). { split; [apply Rmult_le_pos; lra|]. apply Rle_trans with (255 * 1)%R; [|lra]. apply Rmult_le_compat; lra. }
  assert (D1 : isd (dmul (d_of_Z p) g) (rd (IZR p * gv))).
  { apply dmul_R; auto; [apply d_of_Z_exact; unfold byte in *; lia|]. apply big31. apply Rabs_le. lra. }
  destruct (rd_rel (IZR p * gv)) as [A1 A2]; [apply mult_Z; auto|lra|]. pose proof (isd_mult _ _ D1) as M1.
  set (r1 := rd (IZR p * gv)) in *. set (c := (8 * u * IZR n)%R) in *.
  assert (C : (0 <= c <= 1 / 1048576)%R) by (unfold c; lra).
  assert (LV : (0 <= IZR lo * v)%R) by (apply Rmult_le_pos; lra). assert (HV : (0 <= IZR hi * v <= 255 * 1073741824)%R).
  { split; [apply Rmult_le_pos; lra|]. apply Rmult_le_compat; lra. }
  assert (R0 : (0 <= r)%R). { eapply Rle_trans; [|apply B]. apply Rmult_le_pos; lra. }
  assert (R1 : (0 <= r1)%R). { eapply Rle_trans; [|apply A1]. apply Rmult_le_pos; lra. }
  assert (RB : (r <= 255 * 1073741824 * 2)%R).
  { eapply Rle_trans; [apply B|]. apply Rle_trans with (255 * 1073741824 * (1 + 1))%R; [|lra]. apply Rmult_le_compat; lra. }
  assert (D2 : isd (dadd x (dmul (d_of_Z p) g)) (rd (r + r1))).
  { apply dadd_R; auto. apply abs_big with 1000000000000; [|lia]. apply Rabs_le. lra. }
  destruct (rd_rel (r + r1)) as [A3 A4]; [apply mult_plus; auto|lra|].
  assert (D3 : isd (dadd t g) (rd (v + gv))).
  { apply dadd_R; auto. apply big31. apply Rabs_le. lra. }
  destruct (rd_rel (v + gv)) as [A5 A6]; [apply mult_plus; auto|lra|].
  exists (rd (r + r1)), (rd (v + gv)). do 2 (split; [assumption|]). split.
  { split; [rewrite <- rd_0; apply rd_mono; lra|]. rewrite <- (rd_IZR (n + 1)) by lia. apply rd_mono. rewrite plus_IZR. lra. }
  replace (8 * u * IZR (n + 1))%R with (c + 8 * u)%R by (unfold c; rewrite plus_IZR; lra).
  set (s := (v + gv)%R) in *. assert (S0 : (0 <= s)%R) by (unfold s; lra).
  assert (LS : (0 <= IZR lo * s)%R) by (apply Rmult_le_pos; lra). assert (HS : (0 <= IZR hi * s)%R) by (apply Rmult_le_pos; lra).
  split.
  - apply Rle_trans with ((r + r1) * (1 - u))%R; [|exact A3].
    apply Rle_trans with (IZR lo * s * (1 - c - u) * (1 - u))%R.
    + apply Rle_trans with (IZR lo * s * ((1 + u) * (1 - (c + 8 * u))))%R.
      * rewrite <- Rmult_assoc. apply Rmult_le_compat_r; [lra|]. rewrite Rmult_assoc. apply Rmult_le_compat_l; [lra|]. lra.
      * rewrite (Rmult_assoc (IZR lo * s)). apply Rmult_le_compat_l; auto. lra.
    + apply Rmult_le_compat_r; [lra|].
      assert (Q1 : (IZR lo * v * (1 - c - u) <= r)%R).
      { eapply Rle_trans; [|apply B]. apply Rmult_le_compat_l; auto. lra. }
      assert (Q2 : (IZR lo * gv * (1 - c - u) <= r1)%R).
      { apply Rle_trans with (IZR p * gv * (1 - u))%R; [|exact A1]. apply Rmult_le_compat; try lra.
        - apply Rmult_le_pos; lra.
        - apply Rmult_le_compat_r; lra. }
      replace (IZR lo * s * (1 - c - u))%R with (IZR lo * v * (1 - c - u) + IZR lo * gv * (1 - c - u))%R by (unfold s; ring). lra.
  - apply Rle_trans with ((r + r1) * (1 + u))%R; [exact A4|].
    apply Rle_trans with (IZR hi * s * (1 + c + u) * (1 + u))%R.
    + apply Rmult_le_compat_r; [lra|].
      assert (Q1 : (r <= IZR hi * v * (1 + c + u))%R).
      { eapply Rle_trans; [apply B|]. apply Rmult_le_compat_l; [apply HV|]. lra. }
      assert (Q2 : (r1 <= IZR hi * gv * (1 + c + u))%R).
      { apply Rle_trans with (IZR p * gv * (1 + u))%R; [exact A2|]. apply Rmult_le_compat; try lra.
        apply Rmult_le_compat_r; lra. }
      replace (IZR hi * s * (1 + c + u))%R with (IZR hi * v * (1 + c + u) + IZR hi * gv * (1 + c + u))%R by (unfold s; ring). lra.
    + apply Rle_trans with (IZR hi * s * ((1 - u) * (1 + (c + 8 * u))))%R.
      * rewrite (Rmult_assoc (IZR hi * s)). apply Rmult_le_compat_l; auto. lra.
      * rewrite <- Rmult_assoc. apply Rmult_le_compat_r; [lra|]. rewrite Rmult_assoc. apply Rmult_le_compat_l; [lra|]. lra.
Qed.

Lemma trunc_between y lo hi : 0 <= lo -> (IZR lo <= y)%R -> (y < IZR hi + 1)%R -> lo <= Ztrunc y <= hi.
Proof.
  intros H0 H1 H2. assert (0 <= y)%R by (eapply Rle_trans; [|exact H1]; apply IZR_le; lia).
  rewrite Ztrunc_floor by auto. split; [apply Zfloor_lub; auto|].
  assert (Zfloor y < hi + 1); [|lia]. apply lt_IZR. rewrite plus_IZR. eapply Rle_lt_trans; [apply Zfloor_lb|exact H2].
Qed.

(** Rounding to a byte a value close to the range [lo, hi] *)
Lemma round_byte x y lo hi : byte lo -> byte hi -> isd x y -> (IZR lo - 1 / 4 <= y <= IZR hi + 1 / 4)%R ->
  exists v, to_u8 (dadd x half) = Ok v /\ lo <= v <= hi.
Proof.
  intros Hl Hh D B. pose proof (byte_R _ Hl) as RL. pose proof (byte_R _ Hh) as RH.
  assert (B1 : (Rabs (y + 1 / 2) <= 1024)%R) by (apply Rabs_le; lra).
  pose proof (rd_e10 _ B1) as E. assert (D1 : isd (dadd x half) (rd (y + 1 / 2))).
  { apply dadd_R; auto; [apply half_isd|]. apply big31. lra. }
  exists (Ztrunc (rd (y + 1 / 2))). destruct (to_u8_R _ _ D1) as [-> _]; [lra|]. split; auto.
  apply trunc_between; [apply Hl| |]; lra.
Qed.

Lemma acc_final lo hi n x t : byte lo -> byte hi -> 0 <= n <= 1073741824 -> acc lo hi n x t -> dlt d0 t = true ->
  exists v, to_u8 (dadd (ddiv x t) half) = Ok v /\ lo <= v <= hi.
Proof.
  intros Hl Hh Hn (r & v & Dx & Dt & V & B) P. rewrite (dlt_R _ _ _ _ isd_d0 Dt) in P.
  destruct (Rlt_bool_spec 0 v) as [V0|]; [|discriminate].
  pose proof (byte_R _ Hl) as RL. pose proof (byte_R _ Hh) as RH.
  assert (RN : (0 <= IZR n <= 1073741824)%R) by (split; apply IZR_le; lia).
  assert (Q : (IZR lo - 1 / 1024 <= r / v <= IZR hi + 1 / 1024)%R).
  { split; apply Rmult_le_reg_r with v; auto; replace (r / v * v)%R with r by (field; lra).
    - eapply Rle_trans; [|apply B].
      assert (0 <= v * (1 / 1024 - IZR lo * (8 * u * IZR n)))%R; [|lra].
      apply Rmult_le_pos; [lra|].
      assert (IZR lo * (8 * u * IZR n) <= 255 * (1 / 1048576))%R by (apply Rmult_le_compat; lra). lra.
    - eapply Rle_trans; [apply B|].
      assert (0 <= v * (1 / 1024 - IZR hi * (8 * u * IZR n)))%R; [|lra].
      apply Rmult_le_pos; [lra|].
      assert (IZR hi * (8 * u * IZR n) <= 255 * (1 / 1048576))%R by (apply Rmult_le_compat; lra). lra. }
  assert (Bq : (Rabs (r / v) <= 1024)%R) by (apply Rabs_le; lra). pose proof (rd_e10 _ Bq) as E.
  apply round_byte with (rd (r / v)); auto; [|lra]. apply ddiv_R; auto; [lra|]. apply big31. lra.
Qed.

(** ** Cells and windows *)
Lemma overlap_R i start end_ a b : -1073741825 <= i <= 1073741825 -> isd start a -> isd end_ b ->
  isd (fst (overlap i start end_)) (Rmax (IZR i) a) /\ isd (snd (overlap i start end_)) (Rmin (IZR (i + 1)) b).
Proof.
  intros Hi Da Db. unfold overlap. cbn [fst snd].
  assert (D1 : isd (d_of_Z i) (IZR i)) by (apply d_of_Z_exact; lia).
  assert (D2 : isd (d_of_Z (i + 1)) (IZR (i + 1))) by (apply d_of_Z_exact; lia).
  rewrite (dlt_R _ _ _ _ Da D1), (dlt_R _ _ _ _ D2 Db).
  destruct (Rlt_bool_spec a (IZR i)), (Rlt_bool_spec (IZR (i + 1)) b).
  - rewrite Rmax_left, Rmin_left by lra. auto.
  - rewrite Rmax_left, Rmin_right by lra. auto.
  - rewrite Rmax_right, Rmin_left by lra. auto.
  - rewrite Rmax_right, Rmin_right by lra. auto.
Qed.

Lemma weight_R ol or_ ot ob i j a b a' b' : isd ol (Rmax (IZR i) a) -> isd or_ (Rmin (IZR (i + 1)) b) ->
  isd ot (Rmax (IZR j) a') -> isd ob (Rmin (IZR (j + 1)) b') ->
  (Rmax (IZR i) a < Rmin (IZR (i + 1)) b)%R -> (Rmax (IZR j) a' < Rmin (IZR (j + 1)) b')%R ->
  exists g, isd (dmul (dsub or_ ol) (dsub ob ot)) g /\ (0 <= g <= 1)%R /\
   ((/ 9007199254740992 <= Rmin (IZR (i + 1)) b - Rmax (IZR i) a)%R -> (/ 9007199254740992 <= Rmin (IZR (j + 1)) b' - Rmax (IZR j) a')%R -> (0 < g)%R).
Proof.
  intros D1 D2 D3 D4 L1 L2.
  assert (W1 : (0 <= Rmin (IZR (i + 1)) b - Rmax (IZR i) a <= 1)%R).
  { pose proof (Rmin_l (IZR (i + 1)) b) as A. pose proof (Rmax_l (IZR i) a). rewrite plus_IZR in *. lra. }
  assert (W2 : (0 <= Rmin (IZR (j + 1)) b' - Rmax (IZR j) a' <= 1)%R).
  { pose proof (Rmin_l (IZR (j + 1)) b') as A. pose proof (Rmax_l (IZR j) a'). rewrite plus_IZR in *. lra. }
  revert W1 W2. pose proof (dsub_R _ _ _ _ D2 D1) as S1. pose proof (dsub_R _ _ _ _ D4 D3) as S2. revert S1 S2.
  generalize (Rmin (IZR (i + 1)) b - Rmax (IZR i) a)%R (Rmin (IZR (j + 1)) b' - Rmax (IZR j) a')%R. intros x y S1 S2 W1 W2.
  specialize (S1 ltac:(apply big31; apply Rabs_le; lra)). specialize (S2 ltac:(apply big31; apply Rabs_le; lra)).
  assert (X : (0 <= rd x <= 1)%R). { split; [rewrite <- rd_0|rewrite <- (rd_IZR 1) by lia]; apply rd_mono; lra. }
  assert (Y : (0 <= rd y <= 1)%R). { split; [rewrite <- rd_0|rewrite <- (rd_IZR 1) by lia]; apply rd_mono; lra. }
  assert (XY : (0 <= rd x * rd y <= 1)%R).
  { split; [apply Rmult_le_pos; lra|]. replace 1%R with (1 * 1)%R by ring. apply Rmult_le_compat; lra. }
  exists (rd (rd x * rd y)). split. { apply dmul_R; auto. apply big31; apply Rabs_le; lra. }
  split. { split; [rewrite <- rd_0|rewrite <- (rd_IZR 1) by lia]; apply rd_mono; lra. }
  intros Hx Hy. change (/ 9007199254740992)%R with (bpow radix2 (-53)) in Hx, Hy.
  assert (F : forall e, -1074 <= e <= 0 -> rd (bpow radix2 e) = bpow radix2 e).
  { intros e He. replace (bpow radix2 e) with (IZR 1 * bpow radix2 e)%R by ring. apply rd_dyadic; lia. }
  apply rd_mono in Hx. apply rd_mono in Hy. rewrite F in Hx, Hy by lia.
  apply Rlt_le_trans with (bpow radix2 (-106)); [apply bpow_gt_0|]. rewrite <- (F (-106)) by lia. apply rd_mono.
  change (-106) with (-53 + -53). rewrite bpow_plus. pose proof (bpow_gt_0 radix2 (-53)). apply Rmult_le_compat; lra.
Qed.

(** A number of the format below the integer n >= 1, at least 1/2, is 2^-53 below *)
Lemma below_int x a m : isd x a -> (1 / 2 <= a)%R -> (a < IZR m)%R -> (/ 9007199254740992 <= IZR m - a)%R.
Proof.
  intros [F E] H1 H2. pose proof (generic_format_B2R 53 1024 x) as G. rewrite E in G. unfold generic_format in G.
  set (c := cexp radix2 (SpecFloat.fexp 53 1024) a) in *. set (z := Ztrunc (scaled_mantissa radix2 (SpecFloat.fexp 53 1024) a)) in *.
  assert (C : -53 <= c).
  { unfold c, cexp, SpecFloat.fexp, SpecFloat.emin. assert (0 <= mag radix2 a); [|lia].
    apply mag_ge_bpow. change (bpow radix2 (0 - 1)) with (/ 2)%R. rewrite Rabs_pos_eq; lra. }
  assert (K : a = (IZR (z * 2 ^ (c + 53)) * / 9007199254740992)%R).
  { rewrite G at 1. unfold F2R. cbn [Fnum Fexp]. rewrite mult_IZR. change 2 with (radix_val radix2) at 1. rewrite IZR_Zpower by lia.
    rewrite Rmult_assoc. f_equal. change (/ 9007199254740992)%R with (bpow radix2 (-53)). rewrite <- bpow_plus. f_equal. lia. }
  revert K. generalize (z * 2 ^ (c + 53)). intros y K.
  assert (Y : y + 1 <= m * 9007199254740992).
  { assert (y < m * 9007199254740992); [|lia]. apply lt_IZR. rewrite mult_IZR. lra. }
  apply IZR_le in Y. rewrite plus_IZR, mult_IZR in Y. lra.
Qed.

(** With a factor of at most 1 every window meets a cell of the picture *)
Lemma cell_R n r o start end_ a b : 0 < n <= 1073741824 -> factor_ok n r -> 0 <= o < out_size n r -> (B2R r <= 1)%R ->
  isd start a -> isd end_ b ->
  (IZR o / B2R r - 1 / 2 - 1 / 524288 <= a <= IZR o / B2R r - 1 / 2 + 1 / 524288)%R ->
  (IZR o / B2R r + 1 / B2R r - 1 / 2 - 1 / 524288 <= b <= IZR o / B2R r + 1 / B2R r - 1 / 2 + 1 / 524288)%R ->
  let i := Z.max 0 (Zfloor a) in
  i < Z.min n (Zceil b) /\ (/ 9007199254740992 <= Rmin (IZR (i + 1)) b - Rmax (IZR i) a)%R.
Proof.
  intros Hn Hr Ho R1 Da Db A B i. destruct (o_R n r o Hn Hr Ho) as (H1 & H2 & H3 & _). pose proof (R_pos n r Hr) as RP.
  assert (K : (1 <= 1 / B2R r)%R). { unfold Rdiv. rewrite Rmult_1_l. rewrite <- Rinv_1. apply Rinv_le_contravar; lra. }
  assert (NR := n_R n Hn).
  pose proof (Zfloor_lb a) as Lb. pose proof (Zfloor_ub a) as Ub.
  destruct (Rle_or_lt 0 a) as [A0|A0].
  - assert (I : i = Zfloor a). { unfold i. assert (0 <= Zfloor a) by (apply Zfloor_lub; auto). lia. }
    rewrite I. split.
    + apply Z.min_glb_lt.
      * apply lt_IZR. lra.
      * apply lt_IZR. eapply Rlt_le_trans; [|apply Zceil_ub]. lra.
    + rewrite Rmax_right by lra. rewrite plus_IZR. apply Rmin_case; [|lra].
      destruct (Rle_or_lt (1 / 2) a) as [H|H].
      * rewrite <- plus_IZR. apply (below_int _ _ _ Da H). rewrite plus_IZR. lra.
      * replace (Zfloor a) with 0; [lra|]. symmetry. apply Zfloor_imp. change (0 + 1) with 1. lra.
  - assert (I : i = 0). { unfold i. assert (Zfloor a <= 0); [|lia]. apply le_IZR. lra. }
    rewrite I. split.
    + apply Z.min_glb_lt; [lia|]. apply lt_IZR. eapply Rlt_le_trans; [|apply Zceil_ub]. lra.
    + rewrite Rmax_left by lra. change (0 + 1) with 1. apply Rmin_case; lra.
Qed.

(** ** Interpolation *)
Lemma rd_01 x : (0 <= x <= 1)%R -> (0 <= rd x <= 1)%R.
Proof. intros. split; [rewrite <- rd_0|rewrite <- (rd_IZR 1) by lia]; apply rd_mono; lra. Qed.

Lemma term_R p x y X Y xv yv : byte p -> isd x X -> isd y Y -> (0 <= X <= 1)%R -> (0 <= Y <= 1)%R ->
  (0 <= xv <= 1)%R -> (0 <= yv <= 1)%R -> (xv - u <= X <= xv + u)%R -> (yv - u <= Y <= yv + u)%R ->
  exists t, isd (dmul (dmul (d_of_Z p) x) y) t /\ (IZR p * xv * yv - 1 / 1000000 <= t <= IZR p * xv * yv + 1 / 1000000)%R.
Proof.
  intros Bp Dx Dy HX HY Hx Hy EX EY. pose proof (byte_R _ Bp) as RP.
  assert (P1 : (0 <= IZR p * X <= 255)%R). { split; [apply Rmult_le_pos; lra|]. apply Rle_trans with (255 * 1)%R; [|lra]. apply Rmult_le_compat; lra. }
  assert (D1 : isd (dmul (d_of_Z p) x) (rd (IZR p * X))).
  { apply dmul_R; auto; [apply d_of_Z_exact; unfold byte in *; lia|]. apply big31; apply Rabs_le; lra. }
  pose proof (rd_e10 (IZR p * X) ltac:(apply Rabs_le; lra)) as E1. set (a := rd (IZR p * X)) in *.
  assert (P2 : (-1 <= a * Y <= 256)%R).
  { split; [apply Rle_trans with (-1 * 1)%R; [lra|]; assert (0 <= (a + 1) * Y)%R by (apply Rmult_le_pos; lra); lra|].
    assert (0 <= (256 - a) * Y)%R by (apply Rmult_le_pos; lra). lra. }
  exists (rd (a * Y)). split; [apply dmul_R; auto; apply big31; apply Rabs_le; lra|].
  pose proof (rd_e10 (a * Y) ltac:(apply Rabs_le; lra)) as E2.
  assert (Q1 : (IZR p * xv - 1 / 4000000 <= a <= IZR p * xv + 1 / 4000000)%R).
  { assert (Rabs (IZR p * (X - xv)) <= 255 * u)%R.
    { rewrite Rabs_mult. apply Rmult_le_compat; try apply Rabs_pos; [rewrite Rabs_pos_eq; lra|apply Rabs_le; lra]. }
    apply Rabs_le_inv in H. lra. }
  assert (Q2 : (Rabs (a * Y - IZR p * xv * yv) <= 1 / 2000000)%R).
  { replace (a * Y - IZR p * xv * yv)%R with ((a - IZR p * xv) * Y + IZR p * xv * (Y - yv))%R by ring.
    assert (Rabs ((a - IZR p * xv) * Y) <= 1 / 4000000 * 1)%R.
    { rewrite Rabs_mult. apply Rmult_le_compat; try apply Rabs_pos; apply Rabs_le; lra. }
    assert (P3 : (0 <= IZR p * xv <= 255)%R). { split; [apply Rmult_le_pos; lra|]. apply Rle_trans with (255 * 1)%R; [|lra]. apply Rmult_le_compat; lra. }
    assert (Rabs (IZR p * xv * (Y - yv)) <= 255 * u)%R.
    { rewrite Rabs_mult. apply Rmult_le_compat; try apply Rabs_pos; [rewrite Rabs_pos_eq; lra|apply Rabs_le; lra]. }
    eapply Rle_trans; [apply Rabs_triang|]. lra. }
  apply Rabs_le_inv in Q2. lra.
Qed.

Lemma convex2 a b x lo hi : (0 <= x <= 1)%R -> (lo <= a <= hi)%R -> (lo <= b <= hi)%R -> (lo <= a * (1 - x) + b * x <= hi)%R.
Proof.
  intros Hx Ha Hb.
  assert (0 <= (a - lo) * (1 - x))%R by (apply Rmult_le_pos; lra). assert (0 <= (b - lo) * x)%R by (apply Rmult_le_pos; lra).
  assert (0 <= (hi - a) * (1 - x))%R by (apply Rmult_le_pos; lra). assert (0 <= (hi - b) * x)%R by (apply Rmult_le_pos; lra). lra.
Qed.

Lemma interpolate_ok p00 p01 p10 p11 dx dy x y lo hi : byte lo -> byte hi ->
  lo <= p00 <= hi -> lo <= p01 <= hi -> lo <= p10 <= hi -> lo <= p11 <= hi ->
  isd dx x -> isd dy y -> (0 <= x <= 1)%R -> (0 <= y <= 1)%R ->
  exists v, to_u8 (dadd (interpolate p00 p01 p10 p11 dx dy) half) = Ok v /\ lo <= v <= hi.
Proof.
  intros Hl Hh H00 H01 H10 H11 Dx Dy X Y.
  assert (DX : isd (dsub d1 dx) (rd (1 - x))) by (apply dsub_R; auto; [apply isd_d1|apply big31; apply Rabs_le; lra]).
  assert (DY : isd (dsub d1 dy) (rd (1 - y))) by (apply dsub_R; auto; [apply isd_d1|apply big31; apply Rabs_le; lra]).
  assert (X' : (0 <= 1 - x <= 1)%R) by lra. assert (Y' : (0 <= 1 - y <= 1)%R) by lra.
  pose proof (rd_01 _ X') as X01. pose proof (rd_01 _ Y') as Y01.
  pose proof (rd_e0 (1 - x) ltac:(apply Rabs_le; lra)) as EX. pose proof (rd_e0 (1 - y) ltac:(apply Rabs_le; lra)) as EY.
  assert (Bx : (x - u <= x <= x + u)%R) by lra. assert (By : (y - u <= y <= y + u)%R) by lra.
  assert (BP : forall p, lo <= p <= hi -> byte p) by (unfold byte in *; lia).
  destruct (term_R p00 _ _ _ _ (1 - x) (1 - y) (BP _ H00) DX DY X01 Y01 X' Y' EX EY) as (t1 & D1 & T1).
  destruct (term_R p01 _ _ _ _ x (1 - y) (BP _ H01) Dx DY X Y01 X Y' Bx EY) as (t2 & D2 & T2).
  destruct (term_R p10 _ _ _ _ (1 - x) y (BP _ H10) DX Dy X01 Y X' Y EX By) as (t3 & D3 & T3).
  destruct (term_R p11 _ _ _ _ x y (BP _ H11) Dx Dy X Y X Y Bx By) as (t4 & D4 & T4).
  assert (P : forall p a b, lo <= p <= hi -> (0 <= a <= 1)%R -> (0 <= b <= 1)%R -> (0 <= IZR p * a * b <= 255)%R).
  { intros p a b Hp Ha Hb. pose proof (byte_R _ (BP _ Hp)). assert (0 <= a * b <= 1)%R.
    { split; [apply Rmult_le_pos; lra|]. replace 1%R with (1 * 1)%R by ring. apply Rmult_le_compat; lra. }
    rewrite Rmult_assoc. split; [apply Rmult_le_pos; lra|]. apply Rle_trans with (255 * 1)%R; [|lra]. apply Rmult_le_compat; lra. }
  pose proof (P p00 (1 - x) (1 - y) H00 X' Y')%R as P1. pose proof (P p01 x (1 - y) H01 X Y')%R as P2.
  pose proof (P p10 (1 - x) y H10 X' Y)%R as P3. pose proof (P p11 x y H11 X Y)%R as P4.
  assert (RR : forall p, lo <= p <= hi -> (IZR lo <= IZR p <= IZR hi)%R) by (intros; split; apply IZR_le; lia).
  assert (CV : (IZR lo <= IZR p00 * (1 - x) * (1 - y) + IZR p01 * x * (1 - y) + IZR p10 * (1 - x) * y + IZR p11 * x * y <= IZR hi)%R).
  { replace (IZR p00 * (1 - x) * (1 - y) + IZR p01 * x * (1 - y) + IZR p10 * (1 - x) * y + IZR p11 * x * y)%R
      with ((IZR p00 * (1 - x) + IZR p01 * x) * (1 - y) + (IZR p10 * (1 - x) + IZR p11 * x) * y)%R by ring.
    apply convex2; auto; apply convex2; auto. }
  revert T1 T2 T3 T4 P1 P2 P3 P4 CV.
  generalize (IZR p00 * (1 - x) * (1 - y))%R (IZR p01 * x * (1 - y))%R (IZR p10 * (1 - x) * y)%R (IZR p11 * x * y)%R.
  intros q1 q2 q3 q4 T1 T2 T3 T4 P1 P2 P3 P4 CV.
  unfold interpolate. pose proof (rd_e10 (t1 + t2) ltac:(apply Rabs_le; lra)) as E1.
  pose proof (rd_e10 (rd (t1 + t2) + t3) ltac:(apply Rabs_le; lra)) as E2.
  pose proof (rd_e10 (rd (rd (t1 + t2) + t3) + t4) ltac:(apply Rabs_le; lra)) as E3.
  apply round_byte with (rd (rd (rd (t1 + t2) + t3) + t4)); auto; [|lra].
  repeat (apply dadd_R; [|assumption|apply big31; apply Rabs_le; lra]). exact D1.
Qed.

(** ** One pixel *)
Section Px.
Variables (w h : Z) (rx ry : f64) (b : buf Z) (x y : Z).
Hypothesis Hw : 0 < w.
Hypothesis Hh : 0 < h.
Hypothesis Hwh : w * h * 4 <= 4294967296.
Hypothesis Hb : image (w * h * 4) b.
Hypothesis Fx : factor_ok w rx.
Hypothesis Fy : factor_ok h ry.
Hypothesis Hx : 0 <= x < out_size w rx.
Hypothesis Hy : 0 <= y < out_size h ry.
Variables lo hi : Z -> Z.
Hypothesis Hlo : forall c, 0 <= c < 3 -> byte (lo c).
Hypothesis Hhi : forall c, 0 <= c < 3 -> byte (hi c).
Hypothesis Hn : forall c, 0 <= c < 3 -> bounded_near w h rx ry b x y c (lo c) (hi c).

Lemma w_le : w <= 1073741824.
Proof. nia. Qed.
Lemma h_le : h <= 1073741824.
Proof. nia. Qed.

Lemma idx i j : 0 <= i < w -> 0 <= j < h -> u32 (u32 (u32 (j * w) + i) * 4) = (j * w + i) * 4 /\ 0 <= (j * w + i) * 4 <= w * h * 4 - 4.
Proof.
  intros Hi Hj. pose proof (rm_bound w h i j Hi Hj) as B. assert (0 <= j * w) by nia.
  rewrite (u32_small (j * w)) by lia. rewrite (u32_small (j * w + i)) by lia. rewrite u32_small by lia. lia.
Qed.

Lemma ld i j c : 0 <= i < w -> 0 <= j < h -> 0 <= c < 4 -> exists v, load b (u32 ((j * w + i) * 4 + c)) = Ok v /\ pix b w 4 i j c = Some v /\ byte v.
Proof.
  intros Hi Hj Hc. destruct (idx i j Hi Hj) as [_ B]. rewrite u32_small by lia. destruct Hb as [L I].
  destruct (I ((j * w + i) * 4 + c)) as (v & E & V); [lia|]. exists v. split; [apply load_ok; [lia|exact E]|]. split; [exact E|exact V].
Qed.

Definition Inv (n : Z) (s : sums) : Prop :=
  let '(r, g, bl, t) := s in acc (lo 0) (hi 0) n r t /\ acc (lo 1) (hi 1) n g t /\ acc (lo 2) (hi 2) n bl t.
Definition tot (s : sums) : f64 := snd s.

Lemma Inv_mono n m s : n <= m -> Inv n s -> Inv m s.
Proof.
  destruct s as [[[r g] bl] t]. intros H (A & B & C). split; [|split]; eapply acc_mono; eauto; try apply Hlo; try apply Hhi; lia.
Qed.

Lemma step_ok xs xe ys ye a a2 c c2 i j n s :
  isd xs a -> isd xe a2 -> isd ys c -> isd ye c2 ->
  (forall i, 0 <= i < w -> (a < IZR (i + 1))%R -> (IZR i < a2)%R -> near rx x i) ->
  (forall j, 0 <= j < h -> (c < IZR (j + 1))%R -> (IZR j < c2)%R -> near ry y j) ->
  0 <= i < w -> 0 <= j < h -> 0 <= n < 1073741824 -> Inv n s ->
  exists s', box_step b w xs xe ys ye j i s = Ok s' /\ Inv (n + 1) s' /\
    ((0 <= B2R (tot s))%R -> (B2R (tot s) <= B2R (tot s'))%R) /\
    ((/ 9007199254740992 <= Rmin (IZR (i + 1)) a2 - Rmax (IZR i) a)%R -> (/ 9007199254740992 <= Rmin (IZR (j + 1)) c2 - Rmax (IZR j) c)%R -> (0 < B2R (tot s'))%R).
Proof.
  intros D1 D2 D3 D4 N1 N2 Hi Hj Hc I. pose proof w_le. pose proof h_le. unfold box_step.
  destruct (overlap_R i xs xe a a2 ltac:(lia) D1 D2) as [O1 O2]. destruct (overlap_R j ys ye c c2 ltac:(lia) D3 D4) as [O3 O4].
  destruct (overlap i xs xe) as [ol or_]. destruct (overlap j ys ye) as [ot ob]. cbn [fst snd] in *.
  rewrite (dlt_R _ _ _ _ O1 O2), (dlt_R _ _ _ _ O3 O4).
  destruct (Rlt_bool_spec (Rmax (IZR i) a) (Rmin (IZR (i + 1)) a2)) as [L1|L1]; cbn [andb].
  1: destruct (Rlt_bool_spec (Rmax (IZR j) c) (Rmin (IZR (j + 1)) c2)) as [L2|L2].
  - destruct (weight_R _ _ _ _ i j a a2 c c2 O1 O2 O3 O4 L1 L2) as (g & Dg & G01 & Gp).
    assert (Ni : near rx x i).
    { apply N1; auto.
      - eapply Rle_lt_trans; [apply Rmax_r|]. eapply Rlt_le_trans; [exact L1|apply Rmin_l].
      - eapply Rle_lt_trans; [apply Rmax_l|]. eapply Rlt_le_trans; [exact L1|apply Rmin_r]. }
    assert (Nj : near ry y j).
    { apply N2; auto.
      - eapply Rle_lt_trans; [apply Rmax_r|]. eapply Rlt_le_trans; [exact L2|apply Rmin_l].
      - eapply Rle_lt_trans; [apply Rmax_l|]. eapply Rlt_le_trans; [exact L2|apply Rmin_r]. }
    destruct s as [[[r gr_] bl] t]. destruct I as (I0 & I1 & I2). cbv zeta.
    destruct (idx i j Hi Hj) as [-> Bx].
    destruct (ld i j 0 Hi Hj ltac:(lia)) as (v0 & E0 & P0 & B0). rewrite Z.add_0_r in E0. rewrite u32_small in E0 by lia. rewrite E0. cbn [bind].
    destruct (ld i j 1 Hi Hj ltac:(lia)) as (v1 & E1 & P1 & B1). rewrite E1. cbn [bind].
    destruct (ld i j 2 Hi Hj ltac:(lia)) as (v2 & E2 & P2 & B2). rewrite E2. cbn [bind].
    eexists. split; [reflexivity|]. split; [|cbn [tot snd]].
    + split; [|split].
      * eapply acc_step; eauto; try (apply Hlo; lia); try (apply Hhi; lia); try lia. apply (Hn 0 ltac:(lia) i j); auto.
      * eapply acc_step; eauto; try (apply Hlo; lia); try (apply Hhi; lia); try lia. apply (Hn 1 ltac:(lia) i j); auto.
      * eapply acc_step; eauto; try (apply Hlo; lia); try (apply Hhi; lia); try lia. apply (Hn 2 ltac:(lia) i j); auto.
    + destruct I0 as (rr & tv & _ & Dt & Tv & _).
      assert (RN : (IZR n <= 1073741824)%R) by (apply IZR_le; lia).
      destruct (dadd_R _ _ _ _ Dt Dg) as [_ Vt]; [apply big31; apply Rabs_le; lra|]. rewrite Vt.
      destruct Dt as [Ft Et]. rewrite Et. assert (rt : rd tv = tv).
      { apply gr_format. rewrite <- Et. apply generic_format_B2R. }
      assert (rg : rd g = g). { destruct Dg as [_ Eg]. apply gr_format. rewrite <- Eg. apply generic_format_B2R. }
      split.
      * intros _. rewrite <- rt at 1. apply rd_mono. lra.
      * intros W1 W2. apply Rlt_le_trans with g; [apply Gp; auto|]. rewrite <- rg at 1. apply rd_mono. lra.
  - exists s. split; [reflexivity|]. split; [apply (Inv_mono n); auto; lia|]. split; [lra|]. intros _ W2. exfalso. lra.
  - exists s. split; [reflexivity|]. split; [apply (Inv_mono n); auto; lia|]. split; [lra|]. intros W1 _. exfalso. lra.
Qed.

Definition px_ok (same : Prop) (p : Z * Z * Z) : Prop :=
  let '(r, g, bl) := p in
  let ok c v := byte v /\ (lo c <= v <= hi c \/ (v = 0 /\ ~ same)) in
  ok 0 r /\ ok 1 g /\ ok 2 bl.

Lemma Inv_tot n s : Inv n s -> (0 <= B2R (tot s))%R /\ isd (tot s) (B2R (tot s)).
Proof. destruct s as [[[r g] bl] t]. intros ((rr & v & _ & [F E] & V & _) & _). cbn [tot snd]. rewrite E. split; [lra|split; auto]. Qed.

Lemma near_win n r o a a2 i : 0 < n <= 1073741824 -> factor_ok n r -> 0 <= o < out_size n r ->
  (IZR o / B2R r - 1 / 2 - 1 / 524288 <= a <= IZR o / B2R r - 1 / 2 + 1 / 524288)%R ->
  (IZR o / B2R r + 1 / B2R r - 1 / 2 - 1 / 524288 <= a2 <= IZR o / B2R r + 1 / B2R r - 1 / 2 + 1 / 524288)%R ->
  (a < IZR (i + 1))%R -> (IZR i < a2)%R -> near r o i.
Proof.
  intros H1 H2 H3 A A2 L1 L2. destruct (o_R n r o H1 H2 H3) as (_ & K & _ & Q). apply (near_R n r o H2).
  rewrite plus_IZR in L1. apply Rabs_le. lra.
Qed.

Lemma box_ok : exists p, box_px b w h rx ry x y = Ok p /\ px_ok ((B2R rx <= 1)%R /\ (B2R ry <= 1)%R) p.
Proof.
  pose proof w_le as Wl. pose proof h_le as Hl.
  destruct (window_R w rx x ltac:(lia) Fx Hx) as (a & a2 & xs & xe & Wx & Dxs & Dxe & A & A2).
  destruct (window_R h ry y ltac:(lia) Fy Hy) as (c & c2 & ys & ye & Wy & Dys & Dye & C & C2).
  assert (N1 : forall i, 0 <= i < w -> (a < IZR (i + 1))%R -> (IZR i < a2)%R -> near rx x i).
  { intros i _. apply (near_win w rx x a a2 i); auto; lia. }
  assert (N2 : forall j, 0 <= j < h -> (c < IZR (j + 1))%R -> (IZR j < c2)%R -> near ry y j).
  { intros j _. apply (near_win h ry y c c2 j); auto; lia. }
  unfold box_px. rewrite Wx. cbn [bind]. rewrite Wy. cbn [bind].
  set (i0 := Z.max 0 (Zfloor a)). set (i1 := Z.min w (Zceil a2)). set (j0 := Z.max 0 (Zfloor c)). set (j1 := Z.min h (Zceil c2)).
  assert (HI : exists s n, for_ j0 j1 (fun sy s => for_ i0 i1 (fun sx s => box_step b w xs xe ys ye sy sx s) s) (d0, d0, d0, d0) = Ok s /\
     Inv n s /\ 0 <= n <= 1073741824 /\ ((B2R rx <= 1)%R /\ (B2R ry <= 1)%R -> (0 < B2R (tot s))%R)).
  { assert (I0 : Inv 0 (d0, d0, d0, d0)) by (split; [|split]; apply acc_0).
    destruct (Z.le_gt_cases j0 j1) as [Lj|Lj].
    2:{ rewrite for_empty by lia. exists (d0, d0, d0, d0), 0. split; auto. split; auto. split; [lia|]. intros [X1 X2].
        destruct (cell_R h ry y _ _ c c2 ltac:(lia) Fy Hy X2 Dys Dye C C2) as [Q _]. unfold j0, j1 in Lj. lia. }
    destruct (for_inv (fun sy s => Inv (sy * w) s /\ ((B2R rx <= 1)%R /\ (B2R ry <= 1)%R -> j0 < sy -> (0 < B2R (tot s))%R)) j0 j1
      (fun sy s => for_ i0 i1 (fun sx s => box_step b w xs xe ys ye sy sx s) s) (d0, d0, d0, d0)) as (s & E & I & P).
    - exact Lj.
    - split; [|intros; lia]. apply (Inv_mono 0); auto. unfold j0. nia.
    - intros sy s Hsy [I P]. assert (Sy : 0 <= sy < h) by (unfold j0, j1 in Hsy; lia).
      destruct (Z.le_gt_cases i0 i1) as [Li|Li].
      2:{ rewrite for_empty by lia. exists s. split; auto. split; [apply (Inv_mono (sy * w)); auto; nia|]. intros [X1 X2] _.
          destruct (cell_R w rx x _ _ a a2 ltac:(lia) Fx Hx X1 Dxs Dxe A A2) as [Q _]. unfold i0, i1 in Li. lia. }
      destruct (for_inv (fun sx s => Inv (sy * w + sx) s /\ ((B2R rx <= 1)%R /\ (B2R ry <= 1)%R -> (j0 < sy \/ i0 < sx) -> (0 < B2R (tot s))%R)) i0 i1
        (fun sx s => box_step b w xs xe ys ye sy sx s) s) as (s' & E & I' & P').
      + exact Li.
      + split; [apply (Inv_mono (sy * w)); auto; unfold i0; lia|]. intros X [Y|Y]; [auto|lia].
      + intros sx s1 Hsx [I1 P1]. assert (Sx : 0 <= sx < w) by (unfold i0, i1 in Hsx; lia).
        pose proof (rm_bound w h sx sy Sx Sy).
        destruct (step_ok xs xe ys ye a a2 c c2 sx sy (sy * w + sx) s1 Dxs Dxe Dys Dye N1 N2 Sx Sy ltac:(lia) I1) as (s2 & E2 & I2 & M2 & G2).
        exists s2. split; auto. split; [rewrite Z.add_assoc; exact I2|]. intros X Hor.
        destruct (Inv_tot _ _ I1) as [T0 _].
        destruct (Z.eq_dec sx i0) as [->|Nx]; [destruct (Z.eq_dec sy j0) as [->|Ny]|].
        * destruct X as [X1 X2].
          destruct (cell_R w rx x _ _ a a2 ltac:(lia) Fx Hx X1 Dxs Dxe A A2) as [_ Q1].
          destruct (cell_R h ry y _ _ c c2 ltac:(lia) Fy Hy X2 Dys Dye C C2) as [_ Q2]. apply G2; auto.
        * eapply Rlt_le_trans; [apply P1; auto; left; lia|auto].
        * eapply Rlt_le_trans; [apply P1; auto; right; lia|auto].
      + exists s'. split; [exact E|]. split.
        * apply (Inv_mono (sy * w + i1)); auto. assert (i1 <= w) by (unfold i1; lia). lia.
        * intros X _. destruct (Z.eq_dec i0 i1) as [Ei|Ei].
          -- exfalso. destruct X as [X1 X2]. destruct (cell_R w rx x _ _ a a2 ltac:(lia) Fx Hx X1 Dxs Dxe A A2) as [Q _]. unfold i0, i1 in Ei. lia.
          -- apply P'; auto. right. lia.
    - exists s, (j1 * w). split; [exact E|]. split; [exact I|]. split; [assert (0 <= j1 <= h) by (unfold j0, j1 in *; lia); nia|].
      intros X. apply P; auto. destruct X as [X1 X2].
      destruct (cell_R h ry y _ _ c c2 ltac:(lia) Fy Hy X2 Dys Dye C C2) as [Q _]. unfold j0, j1. lia. }
  destruct HI as (s & n & -> & I & Hnn & P). cbn [bind]. destruct (Inv_tot _ _ I) as [T0 DT].
  destruct s as [[[r g] bl] t]. cbn [tot snd] in *. destruct I as (I0 & I1 & I2).
  destruct (dlt d0 t) eqn:Ed.
  - destruct (acc_final _ _ n r t (Hlo 0 ltac:(lia)) (Hhi 0 ltac:(lia)) Hnn I0 Ed) as (v0 & -> & V0). cbn [bind].
    destruct (acc_final _ _ n g t (Hlo 1 ltac:(lia)) (Hhi 1 ltac:(lia)) Hnn I1 Ed) as (v1 & -> & V1). cbn [bind].
    destruct (acc_final _ _ n bl t (Hlo 2 ltac:(lia)) (Hhi 2 ltac:(lia)) Hnn I2 Ed) as (v2 & -> & V2). cbn [bind].
    eexists. split; [reflexivity|]. pose proof (Hlo 0 ltac:(lia)). pose proof (Hhi 0 ltac:(lia)). pose proof (Hlo 1 ltac:(lia)). pose proof (Hhi 1 ltac:(lia)).
    pose proof (Hlo 2 ltac:(lia)). pose proof (Hhi 2 ltac:(lia)). unfold byte in *.
    split; [|split]; (split; [unfold byte; lia|left; assumption]).
  - eexists. split; [reflexivity|].
    assert (Ns : ~ ((B2R rx <= 1)%R /\ (B2R ry <= 1)%R)).
    { intros X. specialize (P X). rewrite (dlt_R _ _ _ _ isd_d0 DT) in Ed. rewrite Rlt_bool_true in Ed by auto. discriminate. }
    split; [|split]; (split; [unfold byte; lia|right; split; [reflexivity|exact Ns]]).
Qed.

Lemma lin_ok same : exists p, lin_px b w h rx ry x y = Ok p /\ px_ok same p.
Proof.
  pose proof w_le as Wl. pose proof h_le as Hl.
  destruct (lin_R w rx x ltac:(lia) Fx Hx) as (a & x0 & x1 & dx & tx & Ex & _ & _ & X0 & X1 & NX0 & NX1 & Dx & Tx & _).
  destruct (lin_R h ry y ltac:(lia) Fy Hy) as (c & y0 & y1 & dy & ty & Ey & _ & _ & Y0 & Y1 & NY0 & NY1 & Dy & Ty & _).
  unfold lin_px. rewrite Ex. cbn [bind]. rewrite Ey. cbn [bind].
  assert (CH : forall ch, 0 <= ch < 3 -> exists v, lin_chan b w x0 x1 y0 y1 dx dy ch = Ok v /\ lo ch <= v <= hi ch).
  { intros ch Hc. unfold lin_chan, src_at.
    assert (L : forall i j, 0 <= i < w -> 0 <= j < h -> near rx x i -> near ry y j ->
      exists v, load b (u32 (u32 (u32 (u32 (j * w) + i) * 4) + ch)) = Ok v /\ lo ch <= v <= hi ch).
    { intros i j Hi Hj Ni Nj. destruct (idx i j Hi Hj) as [-> _]. destruct (ld i j ch Hi Hj ltac:(lia)) as (v & -> & P & _).
      exists v. split; auto. apply (Hn ch Hc i j); auto. }
    destruct (L x0 y0) as (p00 & -> & P00); auto. cbn [bind]. destruct (L x1 y0) as (p01 & -> & P01); auto. cbn [bind].
    destruct (L x0 y1) as (p10 & -> & P10); auto. cbn [bind]. destruct (L x1 y1) as (p11 & -> & P11); auto. cbn [bind].
    eapply interpolate_ok; eauto. }
  destruct (CH 0 ltac:(lia)) as (v0 & -> & V0). cbn [bind]. destruct (CH 1 ltac:(lia)) as (v1 & -> & V1). cbn [bind].
  destruct (CH 2 ltac:(lia)) as (v2 & -> & V2). cbn [bind].
  eexists. split; [reflexivity|]. pose proof (Hlo 0 ltac:(lia)). pose proof (Hhi 0 ltac:(lia)). pose proof (Hlo 1 ltac:(lia)). pose proof (Hhi 1 ltac:(lia)).
  pose proof (Hlo 2 ltac:(lia)). pose proof (Hhi 2 ltac:(lia)). unfold byte in *.
  split; [|split]; (split; [unfold byte; lia|left; assumption]).
Qed.

Lemma px_okay : exists p, resize_px b w h rx ry x y = Ok p /\ px_ok (same_way rx ry) p.
Proof.
  pose proof (R_isd _ _ Fx) as Dx. pose proof (R_isd _ _ Fy) as Dy. unfold resize_px, same_way.
  rewrite (dlt_R _ _ _ _ Dx isd_d1), (dlt_R _ _ _ _ Dy isd_d1).
  rewrite (dle_R _ _ _ _ Dx isd_d1), (dle_R _ _ _ _ Dy isd_d1), (dle_R _ _ _ _ isd_d1 Dx), (dle_R _ _ _ _ isd_d1 Dy).
  destruct (Rlt_bool (B2R rx) 1 || Rlt_bool (B2R ry) 1) eqn:E; [|apply lin_ok].
  destruct box_ok as ([[r g] bl] & -> & P). eexists. split; [reflexivity|]. destruct P as (P0 & P1 & P2).
  assert (Sm : (Rle_bool (B2R rx) 1 = true /\ Rle_bool (B2R ry) 1 = true) \/ (Rle_bool 1 (B2R rx) = true /\ Rle_bool 1 (B2R ry) = true) ->
     (B2R rx <= 1)%R /\ (B2R ry <= 1)%R).
  { intros [[A B]|[A B]].
    - destruct (Rle_bool_spec (B2R rx) 1); [|discriminate]. destruct (Rle_bool_spec (B2R ry) 1); [|discriminate]. auto.
    - exfalso. destruct (Rle_bool_spec 1 (B2R rx)); [|discriminate]. destruct (Rle_bool_spec 1 (B2R ry)); [|discriminate].
      rewrite !Rlt_bool_false in E by lra. discriminate. }
  unfold px_ok. tauto.
Qed.
End Px.

(** ** The loops *)
Lemma put_px_ok L ow oh x y r g bl dst : 0 < ow -> 0 < oh -> ow * oh * 4 <= 4294967296 -> L = ow * oh * 4 -> 0 <= x < ow -> 0 <= y < oh -> blen dst = L ->
  exists dst', put_px dst ow x y (r, g, bl) = Ok dst' /\ blen dst' = L /\
    forall j, bget dst' j = if ((y * ow + x) * 4 <=? j) && (j <? (y * ow + x) * 4 + 4)
      then (let c := j - (y * ow + x) * 4 in Some (if c =? 0 then r else if c =? 1 then g else if c =? 2 then bl else 255)) else bget dst j.
Proof.
  intros H1 H2 H3 -> Hx Hy Hl. unfold put_px. pose proof (rm_bound ow oh x y Hx Hy). assert (0 <= y * ow) by nia.
  rewrite (u32_small (y * ow)) by lia. rewrite (u32_small (y * ow + x)) by lia. rewrite (u32_small ((y * ow + x) * 4)) by lia.
  cbv zeta. set (p := (y * ow + x) * 4) in *. rewrite (u32_small (p + 1)), (u32_small (p + 2)), (u32_small (p + 3)) by lia.
  rewrite store_ok by lia. cbn [bind]. rewrite store_ok by (rewrite ?blen_bset; lia). cbn [bind]. rewrite store_ok by (rewrite ?blen_bset; lia). cbn [bind].
  rewrite store_ok by (rewrite ?blen_bset; lia). eexists. split; [reflexivity|]. split; [rewrite !blen_bset; exact Hl|].
  intros j. rewrite !bget_bset.
  destruct (Z.eqb_spec j (p + 3)); [subst j; replace ((p <=? p + 3) && (p + 3 <? p + 4)) with true by lia; replace (p + 3 - p) with 3 by lia; reflexivity|].
  destruct (Z.eqb_spec j (p + 2)); [subst j; replace ((p <=? p + 2) && (p + 2 <? p + 4)) with true by lia; replace (p + 2 - p) with 2 by lia; reflexivity|].
  destruct (Z.eqb_spec j (p + 1)); [subst j; replace ((p <=? p + 1) && (p + 1 <? p + 4)) with true by lia; replace (p + 1 - p) with 1 by lia; reflexivity|].
  destruct (Z.eqb_spec j p); [subst j; replace ((p <=? p) && (p <? p + 4)) with true by lia; replace (p - p) with 0 by lia; reflexivity|].
  replace ((p <=? j) && (j <? p + 4)) with false by lia. reflexivity.
Qed.

Lemma loop_px src w h rx ry ow oh f : 0 < ow -> 0 < oh -> ow * oh * 4 <= 4294967296 ->
  (forall x y, 0 <= x < ow -> 0 <= y < oh -> resize_px src w h rx ry x y = Ok (f x y)) ->
  exists b, resize_loop src w h rx ry ow oh (bnew (ow * oh * 4)) = Ok b /\ blen b = ow * oh * 4 /\
   forall x y c, 0 <= x < ow -> 0 <= y < oh -> 0 <= c < 4 -> pix b ow 4 x y c =
     Some (let '(r, g, bl) := f x y in if c =? 0 then r else if c =? 1 then g else if c =? 2 then bl else 255).
Proof.
  intros H1 H2 H3 Hf. unfold resize_loop.
  destruct (loop2d_writes (ow * oh * 4) 4 ow oh (fun x y => (y * ow + x) * 4)
    (fun x y c => Some (let '(r, g, bl) := f x y in if c =? 0 then r else if c =? 1 then g else if c =? 2 then bl else 255))
    (fun x y b => p <- resize_px src w h rx ry x y ;; put_px b ow x y p) (bnew (ow * oh * 4))) as (b & E & L & V & _); try lia; try reflexivity.
  - intros x y Hx Hy b Hb. rewrite (Hf x y Hx Hy). cbn [bind]. destruct (f x y) as [[r g] bl].
    apply (put_px_ok _ ow oh); auto.
  - intros x y x' y' Hx Hy Hx' Hy' D. destruct (rm_lt ow x y x' y') as [R|R]; auto; lia.
  - exists b. split; [exact E|]. split; [exact L|]. intros x y c Hx Hy Hc. unfold pix. apply V; auto.
Qed.

Definition px_val (r : res (Z * Z * Z)) : Z * Z * Z := match r with Ok p => p | _ => (0, 0, 0) end.

Lemma loop_resized w h rx ry b :
  0 < w -> 0 < h -> w * h * 4 <= 4294967296 -> image (w * h * 4) b -> factor_ok w rx -> factor_ok h ry ->
  out_size w rx * out_size h ry * 4 <= 4294967296 ->
  exists b', resize_loop b w h rx ry (out_size w rx) (out_size h ry) (bnew (out_size w rx * out_size h ry * 4)) = Ok b' /\ resized w h rx ry b b'.
Proof.
  intros Hw Hh Hwh Hb Fx Fy Hs. assert (Ow : 1 <= out_size w rx) by apply Fx. assert (Oh : 1 <= out_size h ry) by apply Fy.
  destruct (loop_px b w h rx ry (out_size w rx) (out_size h ry) (fun x y => px_val (resize_px b w h rx ry x y))) as (b' & E & L & V); try lia.
  { intros x y Hx Hy. destruct (px_okay w h rx ry b x y Hw Hh Hwh Hb Fx Fy Hx Hy (fun _ => 0) (fun _ => 255)) as (p & -> & _); try reflexivity; try (intros; unfold byte; lia).
    intros c Hc i j v Hi Hj _ _ P. destruct Hb as [_ I]. destruct (I ((j * w + i) * 4 + c)) as (v' & E & B); [pose proof (rm_bound w h i j Hi Hj); nia|].
    unfold pix in P. rewrite E in P. injection P as <-. unfold byte in B. lia. }
  exists b'. split; [exact E|].
  assert (G : forall x y, 0 <= x < out_size w rx -> 0 <= y < out_size h ry -> forall lo hi, (forall c, 0 <= c < 3 -> byte (lo c)) -> (forall c, 0 <= c < 3 -> byte (hi c)) ->
     (forall c, 0 <= c < 3 -> bounded_near w h rx ry b x y c (lo c) (hi c)) ->
     forall c, 0 <= c < 3 -> exists v, pix b' (out_size w rx) 4 x y c = Some v /\ byte v /\ (lo c <= v <= hi c \/ (v = 0 /\ ~ same_way rx ry))).
  { intros x y Hx Hy lo hi Bl Bh N c Hc. rewrite (V x y c) by lia.
    destruct (px_okay w h rx ry b x y Hw Hh Hwh Hb Fx Fy Hx Hy lo hi Bl Bh N) as ([[r g] bl] & -> & P0 & P1 & P2). cbn [px_val].
    eexists. split; [reflexivity|]. assert (C3 : c = 0 \/ c = 1 \/ c = 2) by lia. destruct C3 as [E3|[E3|E3]]; subst c; assumption. }
  assert (Triv : forall x y c, 0 <= c < 3 -> bounded_near w h rx ry b x y c 0 255).
  { intros x y c Hc i j v Hi Hj _ _ P. destruct Hb as [_ I]. destruct (I ((j * w + i) * 4 + c)) as (v' & E' & B); [pose proof (rm_bound w h i j Hi Hj); nia|].
    unfold pix in P. rewrite E' in P. injection P as <-. unfold byte in B. lia. }
  split.
  - split; [lia|]. split; [nia|]. intros i Hi.
    destruct (px_decomp (out_size w rx) (out_size h ry) 4 i) as (x & y & c & Hx & Hy & Hc & ->); auto; try lia.
    destruct (Z.eq_dec c 3) as [->|Nc].
    + pose proof (V x y 3 Hx Hy ltac:(lia)) as V3. unfold pix in V3. rewrite V3. destruct (px_val _) as [[? ?] ?]. exists 255. split; [reflexivity|unfold byte; lia].
    + destruct (G x y Hx Hy (fun _ => 0) (fun _ => 255)) with (c := c) as (v & P & B & _); try (intros; unfold byte; lia); auto. exists v. split; [exact P|exact B].
  - intros x y Hx Hy. split.
    + rewrite (V x y 3) by lia. destruct (px_val _) as [[? ?] ?]. reflexivity.
    + intros c lo hi Hc Bl Bh N.
      destruct (G x y Hx Hy (fun c' => if c' =? c then lo else 0) (fun c' => if c' =? c then hi else 255)) with (c := c) as (v & P & _ & B); auto.
      * intros c' _. destruct (c' =? c); auto. unfold byte; lia.
      * intros c' _. destruct (c' =? c); auto. unfold byte; lia.
      * intros c' Hc'. destruct (Z.eqb_spec c' c) as [->|]; auto.
      * rewrite Z.eqb_refl in B. exists v. auto.
Qed.

(** ** The heap shell *)
Lemma to_u32_out n r : 0 < n <= 1073741824 -> factor_ok n r -> to_u32 (dmul (d_of_Z n) r) = Ok (out_size n r) /\ out_size n r <= 4294967295.
Proof.
  intros Hn Hr. destruct (prod_R n r Hn Hr) as [D B]. pose proof (n_R n Hn) as NR. pose proof (R_pos n r Hr) as RP.
  assert (0 <= rd (IZR n * B2R r))%R by (rewrite <- rd_0; apply rd_mono; apply Rmult_le_pos; lra).
  unfold out_size, to_u32. rewrite (btrunc_R _ _ D). destruct (cast_int_R 0 4294967295 _ _ D) as [-> Q]; try lia; try lra. split; [reflexivity|lia].
Qed.

Lemma guards n r : 0 < n <= 1073741824 -> factor_ok n r ->
  dle r d0 = false /\ dfinite r = true /\ dlt (d_of_Z 4294967295) (dmul (d_of_Z n) r) = false.
Proof.
  intros Hn Hr. pose proof (R_isd _ _ Hr) as Dr. pose proof (R_pos _ _ Hr) as P. destruct (prod_R n r Hn Hr) as [D B].
  split; [|split].
  - rewrite (dle_R _ _ _ _ Dr isd_d0). apply Rle_bool_false. exact P.
  - apply Dr.
  - assert (B32 : isd (d_of_Z 4294967295) 4294967295) by (apply d_of_Z_exact; lia).
    rewrite (dlt_R _ _ _ _ B32 D). apply Rlt_bool_false. lra.
Qed.

Lemma resize_shell w h rx ry ow0 oh0 s d b b' (P : buf Z -> Prop) :
  0 < w <= 1073741824 -> 0 < h <= 1073741824 -> factor_ok w rx -> factor_ok h ry -> out_size w rx * out_size h ry * 4 <= 4294967296 ->
  wf s -> mem s d = Some (OBytes b) ->
  resize_loop b w h rx ry (out_size w rx) (out_size h ry) (bnew (out_size w rx * out_size h ry * 4)) = Ok b' -> P b' ->
  returns_sized s (resize w h rx ry ow0 oh0 (Ptr d) s) (out_size w rx) (out_size h ry) P.
Proof.
  intros Hw Hh Fx Fy Hs Hwf Hd E HP. unfold resize. cbn [is_null].
  replace (w =? 0) with false by lia. replace (h =? 0) with false by lia. cbn [orb].
  destruct (guards w rx Hw Fx) as (-> & -> & ->). destruct (guards h ry Hh Fy) as (-> & -> & ->). cbn [orb negb]. cbv zeta.
  destruct (to_u32_out w rx Hw Fx) as [-> Lx]. destruct (to_u32_out h ry Hh Fy) as [-> Ly].
  assert (Ow : 1 <= out_size w rx) by apply Fx. assert (Oh : 1 <= out_size h ry) by apply Fy.
  erewrite bindM_lift by reflexivity. cbv beta. erewrite bindM_lift by reflexivity. cbv beta.
  replace (out_size w rx =? 0) with false by lia. replace (out_size h ry =? 0) with false by lia. cbn [orb].
  assert (SIZE_MAX / out_size h ry <? out_size w rx = false) as ->.
  { unfold SIZE_MAX. apply Z.ltb_ge. apply Z.div_le_lower_bound; nia. }
  replace (SIZE_MAX / 4 <? out_size w rx * out_size h ry) with false by (change (SIZE_MAX / 4) with 4611686018427387903; lia).
  assert (d < nxt s) by (eapply holds_lt; eauto).
  halloc Ea Eo; [exact Hwf| |].
  - exists Null. eexists. split; [reflexivity|]. split; [later_tac Hwf|]. split; [intros i; reflexivity|].
    exists (tick s). split; [cbn [tick]; lia|exact Eo].
  - hget. hget. hlift E.
    erewrite bindM_Ok; [|apply put_bytes_ok with (o := OBytes (bnew (out_size w rx * out_size h ry * 4))); mem_lookup]. cbv beta. cbn [mem nxt orc tick].
    unfold ret. eexists _, _. split; [reflexivity|]. split; [later_tac Hwf|]. split; [apply Hwf; lia|]. split.
    + exists b'. split; [cbn [mem]; rewrite upd_same; reflexivity|exact HP].
    + intros j Hj. cbn [mem]. rewrite !upd_other by auto. reflexivity.
Qed.

Lemma resize_main w h rx ry ow0 oh0 s p b :
  0 < w -> 0 < h -> w * h * 4 <= 4294967296 -> factor_ok w rx -> factor_ok h ry -> out_size w rx * out_size h ry * 4 <= 4294967296 ->
  wf s -> holds s p b -> image (w * h * 4) b ->
  returns_sized s (resize w h rx ry ow0 oh0 p s) (out_size w rx) (out_size h ry) (resized w h rx ry b).
Proof.
  intros Hw Hh Hwh Fx Fy Hs Hwf (d & -> & Hd) Hb.
  destruct (loop_resized w h rx ry b Hw Hh Hwh Hb Fx Fy Hs) as (b' & E & R).
  eapply resize_shell; eauto; nia.
Qed.

(** ** Factor 1 *)
Lemma B2R_d1 : B2R d1 = 1%R.
Proof. apply isd_d1. Qed.

Lemma one_ok n : 0 < n <= 1073741824 -> factor_ok n d1 /\ out_size n d1 = n.
Proof.
  intros Hn. assert (D : isd (dmul (d_of_Z n) d1) (IZR n)).
  { rewrite <- (rd_IZR n) by lia. replace (IZR n) with (IZR n * 1)%R by lra. apply dmul_R; [apply d_of_Z_exact; lia|apply isd_d1|].
    apply big31. rewrite Rmult_1_r. apply Rabs_le. assert (0 <= IZR n <= 1073741824)%R by (split; apply IZR_le; lia). lra. }
  assert (E : out_size n d1 = n). { unfold out_size. rewrite (btrunc_R _ _ D). apply Ztrunc_IZR. }
  split; [|exact E]. split; [reflexivity|]. split; [reflexivity|]. split; [|lia].
  rewrite (dle_R _ _ _ _ D (d_of_Z_exact 4294967295 ltac:(lia))). apply Rle_bool_true. apply IZR_le. lia.
Qed.

Lemma src_one n o : 0 < n <= 1073741824 -> 0 <= o < n -> isd (src_pos o d1) (IZR o).
Proof.
  intros Hn Ho. assert (B : (0 <= IZR o <= 1073741824)%R) by (split; apply IZR_le; lia).
  assert (D1 : isd (dadd (d_of_Z o) half) (IZR o + 1 / 2)).
  { replace (IZR o + 1 / 2)%R with (rd (IZR o + 1 / 2)).
    - apply dadd_R; [apply d_of_Z_exact; lia|apply half_isd|]. apply big31. apply Rabs_le. lra.
    - replace (IZR o + 1 / 2)%R with (IZR (2 * o + 1) * bpow radix2 (-1))%R.
      + apply rd_dyadic; lia.
      + rewrite plus_IZR, mult_IZR. change (bpow radix2 (-1)) with (/ 2)%R. field. }
  assert (D2 : isd (ddiv (dadd (d_of_Z o) half) d1) (IZR o + 1 / 2)).
  { replace (IZR o + 1 / 2)%R with (rd ((IZR o + 1 / 2) / 1)).
    - apply ddiv_R; [exact D1|apply isd_d1|lra|]. apply big31. apply Rabs_le. lra.
    - replace ((IZR o + 1 / 2) / 1)%R with (IZR (2 * o + 1) * bpow radix2 (-1))%R.
      + rewrite rd_dyadic by lia. rewrite plus_IZR, mult_IZR. change (bpow radix2 (-1)) with (/ 2)%R. field.
      + rewrite plus_IZR, mult_IZR. change (bpow radix2 (-1)) with (/ 2)%R. field. }
  replace (IZR o) with (rd (IZR o + 1 / 2 - 1 / 2)).
  - apply dsub_R; [exact D2|apply half_isd|]. apply big31. apply Rabs_le. lra.
  - replace (IZR o + 1 / 2 - 1 / 2)%R with (IZR o) by lra. apply rd_IZR. lia.
Qed.

Lemma lin_one n o : 0 < n <= 1073741824 -> 0 <= o < n -> exists i1 d, lin_axis o d1 n = Ok (o, i1, d) /\ isd d 0 /\ 0 <= i1 < n.
Proof.
  intros Hn Ho. destruct (one_ok n Hn) as [F E].
  destruct (lin_R n d1 o Hn F ltac:(lia)) as (a & i0 & i1 & d & t & El & Da & _ & I0 & I1 & _ & _ & Dd & _ & Q0 & _ & T).
  pose proof (src_one n o Hn Ho) as Ds. assert (Ea : a = IZR o). { destruct Da as [_ <-]. destruct Ds as [_ <-]. reflexivity. }
  subst a. rewrite Zfloor_IZR in Q0. replace (Z.max 0 o) with o in Q0 by lia. subst i0. exists i1, d. split; [exact El|].
  split; [|exact I1]. rewrite T in Dd by (apply IZR_le; lia). rewrite Zfloor_IZR in Dd. replace (IZR o - IZR o)%R with 0%R in Dd by lra. rewrite rd_0 in Dd. exact Dd.
Qed.

Lemma interp_one p00 p01 p10 p11 dx dy : byte p00 -> byte p01 -> byte p10 -> byte p11 -> isd dx 0 -> isd dy 0 ->
  to_u8 (dadd (interpolate p00 p01 p10 p11 dx dy) half) = Ok p00.
Proof.
  intros B0 B1 B2 B3 Dx Dy. pose proof (byte_R _ B0) as R0. pose proof (byte_R _ B1) as R1. pose proof (byte_R _ B2) as R2. pose proof (byte_R _ B3) as R3.
  assert (M : forall x a y c v, isd x a -> isd y c -> (Rabs v <= 1024)%R -> rd v = v -> (a * c = v)%R -> isd (dmul x y) v).
  { intros x a y c v H1 H2 Hv Ev Eq. rewrite <- Ev, <- Eq. apply dmul_R; auto. apply big31. rewrite Eq. lra. }
  assert (S : forall x, isd x 0 -> isd (dsub d1 x) 1).
  { intros x Hx. rewrite <- (rd_IZR 1) by lia. replace (IZR 1) with (1 - 0)%R by lra. apply dsub_R; auto; [apply isd_d1|]. apply big31. apply Rabs_le. lra. }
  assert (Z8 : forall p, byte p -> isd (d_of_Z p) (IZR p)) by (intros p Hp; apply d_of_Z_exact; unfold byte in Hp; lia).
  assert (T0 : isd (dmul (dmul (d_of_Z p00) (dsub d1 dx)) (dsub d1 dy)) (IZR p00)).
  { assert (rd (IZR p00) = IZR p00) by (apply rd_IZR; unfold byte in B0; lia). assert (Rabs (IZR p00) <= 1024)%R by (apply Rabs_le; lra).
    eapply M; [eapply M; [apply Z8; exact B0|apply S; exact Dx|eassumption|eassumption|lra]|apply S; exact Dy|eassumption|eassumption|lra]. }
  assert (Z0 : (Rabs 0 <= 1024)%R) by (rewrite Rabs_R0; lra).
  assert (T1 : isd (dmul (dmul (d_of_Z p01) dx) (dsub d1 dy)) 0).
  { eapply M; [eapply M; [apply Z8; exact B1|exact Dx|exact Z0|exact rd_0|lra]|apply S; exact Dy|exact Z0|exact rd_0|lra]. }
  assert (T2 : isd (dmul (dmul (d_of_Z p10) (dsub d1 dx)) dy) 0).
  { eapply (M _ (IZR p10)); [eapply M; [apply Z8; exact B2|apply S; exact Dx|apply Rabs_le; lra|apply rd_IZR; unfold byte in B2; lia|lra]|exact Dy|exact Z0|exact rd_0|lra]. }
  assert (T3 : isd (dmul (dmul (d_of_Z p11) dx) dy) 0).
  { eapply M; [eapply M; [apply Z8; exact B3|exact Dx|exact Z0|exact rd_0|lra]|exact Dy|exact Z0|exact rd_0|lra]. }
  assert (A : forall x y, isd x (IZR p00) -> isd y 0 -> isd (dadd x y) (IZR p00)).
  { intros x y Hx Hy. rewrite <- (rd_IZR p00) by (unfold byte in B0; lia). replace (IZR p00) with (IZR p00 + 0)%R by lra.
    apply dadd_R; auto. apply big31. apply Rabs_le. lra. }
  assert (I : isd (interpolate p00 p01 p10 p11 dx dy) (IZR p00)) by (unfold interpolate; repeat apply A; auto).
  assert (Q : isd (dadd (interpolate p00 p01 p10 p11 dx dy) half) (IZR p00 + 1 / 2)).
  { replace (IZR p00 + 1 / 2)%R with (rd (IZR p00 + 1 / 2)).
    - apply dadd_R; [exact I|apply half_isd|]. apply big31. apply Rabs_le. lra.
    - replace (IZR p00 + 1 / 2)%R with (IZR (2 * p00 + 1) * bpow radix2 (-1))%R.
      + apply rd_dyadic; unfold byte in B0; lia.
      + rewrite plus_IZR, mult_IZR. change (bpow radix2 (-1)) with (/ 2)%R. field. }
  destruct (to_u8_R _ _ Q) as [-> _]; [lra|]. f_equal. rewrite Ztrunc_floor by lra. apply Zfloor_imp. rewrite plus_IZR. lra.
Qed.

Lemma px_one w h b x y : 0 < w -> 0 < h -> w * h * 4 <= 4294967296 -> image (w * h * 4) b -> 0 <= x < w -> 0 <= y < h ->
  exists r g bl, resize_px b w h d1 d1 x y = Ok (r, g, bl) /\ pix b w 4 x y 0 = Some r /\ pix b w 4 x y 1 = Some g /\ pix b w 4 x y 2 = Some bl.
Proof.
  intros Hw Hh Hwh Hb Hx Hy. unfold resize_px.
  replace (dlt d1 d1 || dlt d1 d1) with false by reflexivity.
  assert (Wl : w <= 1073741824) by nia. assert (Hl : h <= 1073741824) by nia.
  destruct (lin_one w x ltac:(lia) Hx) as (x1 & dx & Ex & Dx & X1). destruct (lin_one h y ltac:(lia) Hy) as (y1 & dy & Ey & Dy & Y1).
  unfold lin_px. rewrite Ex. cbn [bind]. rewrite Ey. cbn [bind].
  assert (CH : forall ch, 0 <= ch < 3 -> exists v, lin_chan b w x x1 y y1 dx dy ch = Ok v /\ pix b w 4 x y ch = Some v).
  { intros ch Hc. unfold lin_chan, src_at.
    assert (L : forall i j, 0 <= i < w -> 0 <= j < h -> exists v, load b (u32 (u32 (u32 (u32 (j * w) + i) * 4) + ch)) = Ok v /\ pix b w 4 i j ch = Some v /\ byte v).
    { intros i j Hi Hj. destruct (idx w h Hw Hh Hwh i j Hi Hj) as [-> _]. apply (ld w h b Hw Hh Hwh Hb i j ch); auto; lia. }
    destruct (L x y) as (p00 & -> & P00 & B00); auto. cbn [bind]. destruct (L x1 y) as (p01 & -> & P01 & B01); auto. cbn [bind].
    destruct (L x y1) as (p10 & -> & P10 & B10); auto. cbn [bind]. destruct (L x1 y1) as (p11 & -> & P11 & B11); auto. cbn [bind].
    exists p00. split; [apply interp_one; auto|exact P00]. }
  destruct (CH 0 ltac:(lia)) as (v0 & -> & V0). cbn [bind]. destruct (CH 1 ltac:(lia)) as (v1 & -> & V1). cbn [bind].
  destruct (CH 2 ltac:(lia)) as (v2 & -> & V2). cbn [bind]. exists v0, v1, v2. auto.
Qed.

Lemma resize_identity w h ow0 oh0 s p b :
  0 < w -> 0 < h -> w * h * 4 <= 4294967296 -> wf s -> holds s p b -> image (w * h * 4) b ->
  returns_sized s (resize w h d1 d1 ow0 oh0 p s) w h (fun b' => exact_image (w * h * 4) b' /\
    forall x y, 0 <= x < w -> 0 <= y < h -> pix b' w 4 x y 3 = Some 255 /\ forall c, 0 <= c < 3 -> pix b' w 4 x y c = pix b w 4 x y c).
Proof.
  intros Hw Hh Hwh Hwf (d & -> & Hd) Hb. assert (Wl : w <= 1073741824) by nia. assert (Hl : h <= 1073741824) by nia.
  destruct (one_ok w ltac:(lia)) as [Fx Ex]. destruct (one_ok h ltac:(lia)) as [Fy Ey].
  assert (Hs : out_size w d1 * out_size h d1 * 4 <= 4294967296) by (rewrite Ex, Ey; exact Hwh).
  destruct (loop_resized w h d1 d1 b Hw Hh Hwh Hb Fx Fy Hs) as (b' & E & R).
  destruct (loop_px b w h d1 d1 w h (fun x y => px_val (resize_px b w h d1 d1 x y))) as (b2 & E2 & _ & V); try lia.
  { intros x y Hx Hy. destruct (px_one w h b x y) as (? & ? & ? & -> & _); auto. }
  rewrite <- Ex at 2. rewrite <- Ey at 2.
  eapply resize_shell; eauto; try nia.
  rewrite Ex, Ey in E. rewrite E in E2. injection E2 as <-.
  unfold resized in R. rewrite Ex, Ey in R. destruct R as [R1 R2]. split; [exact R1|]. intros x y Hx Hy. split; [apply R2; auto|].
  intros c Hc. rewrite (V x y c) by lia. destruct (px_one w h b x y) as (r & g & bl & -> & P0 & P1 & P2); auto. cbn [px_val].
  assert (C3 : c = 0 \/ c = 1 \/ c = 2) by lia. destruct C3 as [E3|[E3|E3]]; subst c; symmetry; assumption.
Qed.

(** ** Rejected arguments *)
Lemma resize_rejects w h rx ry ow0 oh0 s p :
  wf s -> 0 <= w < 4294967296 -> 0 <= h < 4294967296 ->
  p = Null \/ w = 0 \/ h = 0 \/ dle rx d0 = true \/ dle ry d0 = true \/ dfinite rx = false \/ dfinite ry = false \/
  dlt (d_of_Z 4294967295) (dmul (d_of_Z w) rx) = true \/ dlt (d_of_Z 4294967295) (dmul (d_of_Z h) ry) = true ->
  resize w h rx ry ow0 oh0 p s = Ok ((Null, ow0, oh0), s).
Proof.
  intros Hwf Hw Hh H. unfold resize. destruct (is_null p) eqn:E0; [reflexivity|].
  destruct ((w =? 0) || (h =? 0)) eqn:E1; [reflexivity|].
  destruct (dle rx d0 || dle ry d0 || negb (dfinite rx) || negb (dfinite ry)) eqn:E2; [reflexivity|].
  cbv zeta. destruct (dlt (d_of_Z 4294967295) (dmul (d_of_Z w) rx) || dlt (d_of_Z 4294967295) (dmul (d_of_Z h) ry)) eqn:E3; [reflexivity|].
  exfalso. apply orb_false_iff in E1. apply orb_false_iff in E2. destruct E2 as [E2 E2d]. apply orb_false_iff in E2. destruct E2 as [E2 E2c].
  apply orb_false_iff in E2. destruct E2 as [E2a E2b]. apply orb_false_iff in E3. destruct E3 as [E3a E3b]. apply negb_false_iff in E2c. apply negb_false_iff in E2d.
  destruct H as [->|[->|[->|[H|[H|[H|[H|[H|H]]]]]]]]; try congruence; try lia. discriminate E0.
Qed.

(** ** Absolute sizes *)
Lemma ratio_ok n t : 0 < n <= 1073741824 -> 2 <= t <= 1073741824 ->
  let r := ddiv (d_of_Z t) (d_of_Z n) in factor_ok n r /\ t - 1 <= out_size n r <= t.
Proof.
  intros Hn Ht r. assert (NR : (1 <= IZR n <= 1073741824)%R) by (split; apply IZR_le; lia). assert (TR : (2 <= IZR t <= 1073741824)%R) by (split; apply IZR_le; lia).
  assert (Dn : isd (d_of_Z n) (IZR n)) by (apply d_of_Z_exact; lia). assert (Dt : isd (d_of_Z t) (IZR t)) by (apply d_of_Z_exact; lia).
  set (q := (IZR t / IZR n)%R).
  assert (I1 : (0 < / IZR n <= 1)%R). { split; [apply Rinv_0_lt_compat; lra|]. rewrite <- Rinv_1. apply Rinv_le; lra. }
  assert (Q0 : (0 < q <= 1073741824)%R).
  { unfold q, Rdiv. split; [apply Rmult_lt_0_compat; lra|]. apply Rle_trans with (1073741824 * 1)%R; [apply Rmult_le_compat; lra|lra]. }
  assert (Qn : (IZR n * q = IZR t)%R) by (unfold q; field; lra).
  assert (Dr : isd r (rd q)). { apply ddiv_R; auto; [lra|]. apply big31. apply Rabs_le. unfold q in Q0. lra. }
  assert (Rel : (q * (1 - u) <= rd q <= q * (1 + u))%R).
  { pose proof (relative_error_N_FLT radix2 (-1074) 53 prec64 (fun z => negb (Z.even z)) q) as E.
    rewrite (Rabs_pos_eq q) in E by lra.
    assert (Qb : (bpow radix2 (-1022) <= q)%R).
    { apply Rle_trans with (bpow radix2 (-30)); [apply bpow_le; lia|]. change (bpow radix2 (-30)) with (/ 1073741824)%R.
      unfold q, Rdiv. apply Rle_trans with (1 * / IZR n)%R; [|apply Rmult_le_compat_r; lra]. rewrite Rmult_1_l. apply Rinv_le; lra. }
    specialize (E Qb).
    assert (E' : (Rabs (rd q - q) <= u * q)%R).
    { eapply Rle_trans; [apply E|]. apply Rmult_le_compat_r; [lra|]. change (bpow radix2 (- (53) + 1)) with (/ 4503599627370496)%R. lra. }
    apply Rabs_le_inv in E'. lra. }
  assert (P1 : (IZR t * (1 - u) <= IZR n * rd q <= IZR t * (1 + u))%R).
  { rewrite <- Qn. rewrite !Rmult_assoc. split; apply Rmult_le_compat_l; lra. }
  assert (Dp : isd (dmul (d_of_Z n) r) (rd (IZR n * rd q))).
  { apply dmul_R; auto. apply big31. apply Rabs_le. lra. }
  pose proof (rd_e31 (IZR n * rd q)) as E31. assert (Bp : (Rabs (IZR n * rd q) <= 2147483648)%R) by (apply Rabs_le; lra). specialize (E31 Bp).
  assert (O : t - 1 <= out_size n r <= t).
  { unfold out_size. rewrite (btrunc_R _ _ Dp). rewrite Ztrunc_floor by lra. split.
    - apply Zfloor_lub. rewrite minus_IZR. lra.
    - assert (Zfloor (rd (IZR n * rd q)) < t + 1); [|lia]. apply lt_IZR. eapply Rle_lt_trans; [apply Zfloor_lb|]. rewrite plus_IZR. lra. }
  split; [|exact O].
  assert (R0 : (0 < rd q)%R) by lra.
  split. { rewrite (dlt_R _ _ _ _ isd_d0 Dr). apply Rlt_bool_true. exact R0. }
  split; [apply Dr|]. split; [|lia].
  rewrite (dle_R _ _ _ _ Dp (d_of_Z_exact 4294967295 ltac:(lia))). apply Rle_bool_true. lra.
Qed.

Lemma resize_to_main w h tw th s p b :
  0 < w -> 0 < h -> w * h * 4 <= 4294967296 -> w <= INT_MAX -> h <= INT_MAX -> 2 <= tw -> 2 <= th -> tw * th * 4 <= 4294967296 ->
  wf s -> holds s p b -> image (w * h * 4) b ->
  exists q ow oh s', resize_to w h (d_of_Z tw) (d_of_Z th) p s = Ok ((q, ow, oh), s') /\
    match q with
    | Null => same_mem s s' /\ alloc_failed s s' /\ ow = w /\ oh = h
    | Ptr i => tw - 1 <= ow <= tw /\ th - 1 <= oh <= th /\ mem s i = None /\
       exists b', mem s' i = Some (OBytes b') /\ exact_image (ow * oh * 4) b'
    end.
Proof.
  intros Hw Hh Hwh _ _ Htw Hth Ht Hwf Hp Hb.
  assert (w <= 1073741824) by nia. assert (h <= 1073741824) by nia. assert (tw <= 1073741824) by nia. assert (th <= 1073741824) by nia.
  destruct (ratio_ok w tw ltac:(lia) ltac:(lia)) as [Fx Ox]. destruct (ratio_ok h th ltac:(lia) ltac:(lia)) as [Fy Oy].
  assert (Hs : out_size w (ddiv (d_of_Z tw) (d_of_Z w)) * out_size h (ddiv (d_of_Z th) (d_of_Z h)) * 4 <= 4294967296).
  { eapply Z.le_trans; [|exact Ht]. apply Z.mul_le_mono_nonneg_r; [lia|]. apply Z.mul_le_mono_nonneg; lia. }
  destruct (resize_main w h _ _ 0 0 s p b Hw Hh Hwh Fx Fy Hs Hwf Hp Hb) as (q & s' & E & L & R).
  unfold resize_to. cbv zeta. rewrite !u32_small by lia. rewrite (bindM_Ok _ _ _ _ _ E). destruct q as [|i]; cbn [is_null].
  - exists Null, w, h, s'. split; [reflexivity|]. tauto.
  - rewrite !s32_small by (unfold INT_MIN, INT_MAX; lia). exists (Ptr i), (out_size w (ddiv (d_of_Z tw) (d_of_Z w))), (out_size h (ddiv (d_of_Z th) (d_of_Z h))), s'.
    split; [reflexivity|]. split; [exact Ox|]. split; [exact Oy|]. destruct R as (N & (b' & M & R) & _). split; [exact N|]. exists b'. split; [exact M|]. apply R.
Qed.

(** ** Counterexamples *)
Lemma sized_split (r : res (ptr * Z * Z * st)) (P : Z -> Z -> buf Z -> Prop) :
  match r with
  | Ok ((Ptr q, ow, oh), s') => match mem s' q with Some (OBytes b') => P ow oh b' | _ => False end
  | _ => False
  end ->
  exists q ow oh s' b', r = Ok ((Ptr q, ow, oh), s') /\ mem s' q = Some (OBytes b') /\ P ow oh b'.
Proof.
  destruct r as [[[[[|q] ow] oh] s']| | |]; try contradiction.
  destruct (mem s' q) as [[b| | | | | |]|] eqn:E; try contradiction. intros H. exists q, ow, oh, s', b; auto.
Qed.

Definition pic49 : list Z := repeat 200 (Z.to_nat 196).
Lemma absolute_off : exists w h tw th s p b q ow oh s',
  wf s /\ holds s p b /\ image (w * h * 4) b /\ 0 < w /\ 0 < h /\ 0 < tw /\ 0 < th /\
  resize_to w h (d_of_Z tw) (d_of_Z th) p s = Ok ((Ptr q, ow, oh), s') /\ ow <> tw.
Proof.
  assert (H : exists q ow oh s' b', resize_to 49 1 (d_of_Z 256) (d_of_Z 1) (Ptr 0) (st1 pic49) = Ok ((Ptr q, ow, oh), s') /\ mem s' q = Some (OBytes b') /\ ow = 255).
  { apply (sized_split _ (fun ow _ _ => ow = 255)). vm_compute. reflexivity. }
  destruct H as (q & ow & oh & s' & b' & E & _ & Ho).
  exists 49, 1, 256, 1, (st1 pic49), (Ptr 0), (of_list pic49), q, ow, oh, s'.
  split; [apply wf_st1|]. split; [apply holds_st1|]. split; [apply image_of_list; reflexivity|]. do 4 (split; [lia|]). split; [exact E|lia].
Qed.

Lemma absolute_null : exists w h tw th s p b,
  wf s /\ holds s p b /\ image (w * h * 4) b /\ 0 < w /\ 0 < h /\ 0 < tw /\ 0 < th /\ (forall n, orc s n = true) /\
  resize_to w h (d_of_Z tw) (d_of_Z th) p s = Ok ((Null, w, h), s).
Proof.
  exists 49, 1, 1, 1, (st1 pic49), (Ptr 0), (of_list pic49).
  split; [apply wf_st1|]. split; [apply holds_st1|]. split; [apply image_of_list; reflexivity|]. do 4 (split; [lia|]).
  split; [reflexivity|]. vm_compute. reflexivity.
Qed.

Definition pic22 : list Z := [100; 100; 100; 255; 100; 100; 100; 255; 100; 100; 100; 255; 100; 100; 100; 255].
Lemma constant_black : exists w h rx ry s p b q ow oh s' b',
  wf s /\ holds s p b /\ image (w * h * 4) b /\ factor_ok w rx /\ factor_ok h ry /\
  (forall x y c, 0 <= x < w -> 0 <= y < h -> 0 <= c < 3 -> pix b w 4 x y c = Some 100) /\
  resize w h rx ry 0 0 p s = Ok ((Ptr q, ow, oh), s') /\ mem s' q = Some (OBytes b') /\
  pix b' ow 4 0 0 0 = Some 0 /\ pix b' ow 4 (ow - 1) 0 0 = Some 100.
Proof.
  assert (H : exists q ow oh s' b', resize 2 2 (d_of_Z 4) (lit 1 2) 0 0 (Ptr 0) (st1 pic22) = Ok ((Ptr q, ow, oh), s') /\ mem s' q = Some (OBytes b') /\
    (pix b' ow 4 0 0 0 = Some 0 /\ pix b' ow 4 (ow - 1) 0 0 = Some 100)).
  { apply (sized_split _ (fun ow _ b' => pix b' ow 4 0 0 0 = Some 0 /\ pix b' ow 4 (ow - 1) 0 0 = Some 100)). vm_compute. split; reflexivity. }
  destruct H as (q & ow & oh & s' & b' & E & Hm & Ho).
  exists 2, 2, (d_of_Z 4), (lit 1 2), (st1 pic22), (Ptr 0), (of_list pic22), q, ow, oh, s', b'.
  split; [apply wf_st1|]. split; [apply holds_st1|]. split; [apply image_of_list; reflexivity|].
  split; [unfold factor_ok; vm_compute; repeat split; discriminate|]. split; [unfold factor_ok; vm_compute; repeat split; discriminate|].
  split. { intros x y c Hx Hy Hc. assert (X : x = 0 \/ x = 1) by lia. assert (Y : y = 0 \/ y = 1) by lia. assert (C : c = 0 \/ c = 1 \/ c = 2) by lia.
    destruct X; destruct Y; destruct C as [C|[C|C]]; subst; reflexivity. }
  split; [exact E|]. split; [exact Hm|exact Ho].
Qed.

Definition pic_lr : list Z := [0; 0; 0; 255; 100; 100; 100; 255; 0; 0; 0; 255; 100; 100; 100; 255].
Lemma half_not_mean : exists s p b q s' b',
  wf s /\ holds s p b /\ image (2 * 2 * 4) b /\
  resize 2 2 (lit 1 2) (lit 1 2) 0 0 p s = Ok ((Ptr q, 1, 1), s') /\ mem s' q = Some (OBytes b') /\
  pixv b 2 4 0 0 0 + pixv b 2 4 1 0 0 + pixv b 2 4 0 1 0 + pixv b 2 4 1 1 0 = 200 /\ pix b' 1 4 0 0 0 = Some 33.
Proof.
  assert (H : exists q ow oh s' b', resize 2 2 (lit 1 2) (lit 1 2) 0 0 (Ptr 0) (st1 pic_lr) = Ok ((Ptr q, ow, oh), s') /\ mem s' q = Some (OBytes b') /\
    (ow = 1 /\ oh = 1 /\ pix b' 1 4 0 0 0 = Some 33)).
  { apply (sized_split _ (fun ow oh b' => ow = 1 /\ oh = 1 /\ pix b' 1 4 0 0 0 = Some 33)). vm_compute. repeat split; reflexivity. }
  destruct H as (q & ow & oh & s' & b' & E & Hm & -> & -> & Ho).
  exists (st1 pic_lr), (Ptr 0), (of_list pic_lr), q, s', b'.
  split; [apply wf_st1|]. split; [apply holds_st1|]. split; [apply image_of_list; reflexivity|].
  split; [exact E|]. split; [exact Hm|]. split; [reflexivity|exact Ho].
Qed.

Lemma constant_kept w h rx ry b b' k c : same_way rx ry -> resized w h rx ry b b' -> 0 <= c < 3 -> byte k ->
  (forall x y, 0 <= x < w -> 0 <= y < h -> pix b w 4 x y c = Some k) ->
  forall x y, 0 <= x < out_size w rx -> 0 <= y < out_size h ry -> pix b' (out_size w rx) 4 x y c = Some k.
Proof.
  intros Sw [_ R] Hc Bk Hk x y Hx Hy. destruct (R x y Hx Hy) as [_ G]. destruct (G c k k Hc Bk Bk) as (v & E & [V|[_ V]]).
  - intros i j v Hi Hj _ _ P. rewrite Hk in P by auto. injection P as <-. lia.
  - rewrite E. f_equal. lia.
  - contradiction.
Qed.

Lemma resize_constant w h rx ry ow0 oh0 s p b k c :
  0 < w -> 0 < h -> w * h * 4 <= 4294967296 -> factor_ok w rx -> factor_ok h ry -> out_size w rx * out_size h ry * 4 <= 4294967296 ->
  wf s -> holds s p b -> image (w * h * 4) b -> same_way rx ry -> 0 <= c < 3 -> byte k ->
  (forall x y, 0 <= x < w -> 0 <= y < h -> pix b w 4 x y c = Some k) ->
  returns_sized s (resize w h rx ry ow0 oh0 p s) (out_size w rx) (out_size h ry) (fun b' =>
    forall x y, 0 <= x < out_size w rx -> 0 <= y < out_size h ry -> pix b' (out_size w rx) 4 x y c = Some k).
Proof.
  intros Hw Hh Hwh Fx Fy Hs Hwf Hp Hb Sw Hc Bk Hk.
  destruct (resize_main w h rx ry ow0 oh0 s p b Hw Hh Hwh Fx Fy Hs Hwf Hp Hb) as (q & s' & E & L & R). exists q, s'. split; [exact E|]. split; [exact L|].
  destruct q as [|i]; [exact R|]. destruct R as (R1 & (b' & M & R2) & R3). split; [exact R1|]. split; [|exact R3]. exists b'. split; [exact M|].
  eapply constant_kept; eauto.
Qed.
