(** * P_Doc: finding a document *)
From Coq Require Import Reals Lra Psatz String Sorting.Permutation Sorting.Sorted Classical.
From Flocq Require Import Core BinarySingleNaN.
From Verif Require Import Base BaseLemmas F FLemmas FLemmas32 FNear Heap HeapLemmas Spec Spec_Draw Spec_Cli Spec_Resize P_Resize Spec_Blur Spec_Parse
  M_Color M_Parse P_Parse M_Exif M_Cli P_Cli M_Draw P_Draw P_Draw2 Spec_Corners Spec_Detect M_Detect P_Over P_Detect M_Apply Spec_Morph Spec_Apply P_ApplyA P_ApplyB
  P_Apply P_Apply2 M_Main Spec_Main P_Main Spec_Doc.
From Verif Require Spec_Peaks Spec_Trim.
Local Open Scope string_scope.
Local Open Scope list_scope.
Local Open Scope Z_scope.

(** ** Detection *)
Lemma detect_cases ex at2 asin fuel w h s p b : exp_ok ex -> atan2_ok at2 ->
  0 < w -> 0 < h -> w * h <= 1073741824 -> 66565 < Z.of_nat fuel -> wf s -> holds s p b -> image (w * h * 4) b ->
  (forall n, orc s n = true) ->
  looks at2 asin w h b s (detect_corners ex at2 asin fuel p w h s) (fun c s1 run => run = Ok (c, s1)).
Proof.
  intros He Ha Hw Hh Hs Hf Wf Hp Hb A.
  destruct (detect_ok ex at2 asin fuel w h s p b He Ha Hw Hh Hs Hf Wf Hp Hb A) as (ow & oh & e & framed & mk & L & H1 & H2 & H3 & H4).
  destruct H4 as [[H4 H5]|(closed & resp & l & C1 & C2 & C3 & C4)].
  { left. split; [exact H4|]. exists ow, oh, e, framed, mk, L. auto. }
  right.
  assert (PI : peaks_in w h b ow oh l).
  { exists e, framed, mk, L, closed, resp. tauto. }
  destruct (Z.leb_spec 4 (Z.of_nat (length l))) as [K|K].
  - right. destruct C4 as (c & s2 & k & pts & iw & wide & E & B & O). exists c, s2.
    split; [exists ow, oh, l; split; [exact PI|]; split; [lia|exact B]|].
    split; [apply O|]. split; [exact (over_two _ _ _ _ _ _ O)|exact E].
  - left. split; [exact C4|]. exists ow, oh, l. split; [exact PI|lia].
Qed.

Lemma looks_weaken A B at2 asin w h b s (run : res (A * st)) (run' : res (B * st)) (P : corners -> st -> res (A * st) -> Prop) (Q : corners -> st -> res (B * st) -> Prop) :
  looks at2 asin w h b s run P ->
  (run = Abort -> run' = Abort) -> (forall u, run = UB u -> run' = UB u) ->
  (forall c s1, corners_of at2 asin w h b c -> later s s1 -> leaks_two s s1 -> P c s1 run -> Q c s1 run') ->
  looks at2 asin w h b s run' Q.
Proof.
  intros [[E N]|[[(u & E) N]|(c & s1 & C & La & Le & F)]] HA HU HQ.
  - left. auto.
  - right; left. split; [exists u; auto|exact N].
  - right; right. exists c, s1. auto.
Qed.

(** ** Position of the corners *)
Lemma scaled_R x n ow : 0 <= x <= 256 -> 0 < n <= 1073741824 -> 255 <= ow <= 256 ->
  exists a, isd (dmul (d_of_Z x) (ddiv (d_of_Z n) (d_of_Z ow))) a /\ FNear.near (1 / 50) a (IZR x * (IZR n / IZR ow))%R.
Proof.
  intros Hx Hn Ho.
  assert (Rx : (0 <= IZR x <= 256)%R) by (split; apply IZR_le; lia).
  assert (Rn : (1 <= IZR n <= 1073741824)%R) by (split; apply IZR_le; lia).
  assert (Ro : (255 <= IZR ow <= 256)%R) by (split; apply IZR_le; lia).
  pose proof (d_of_Z_exact x ltac:(lia)) as X. pose proof (d_of_Z_exact n ltac:(lia)) as N. pose proof (d_of_Z_exact ow ltac:(lia)) as O.
  assert (Q : (1 / 256 <= IZR n / IZR ow <= 1073741824)%R).
  { split.
    - apply Rmult_le_reg_r with (IZR ow); [lra|]. unfold Rdiv at 2. rewrite Rmult_assoc, Rinv_l by lra. lra.
    - apply Rmult_le_reg_r with (IZR ow); [lra|]. unfold Rdiv. rewrite Rmult_assoc, Rinv_l by lra. nra. }
  assert (D : isd (ddiv (d_of_Z n) (d_of_Z ow)) (rd (IZR n / IZR ow))).
  { apply ddiv_R; auto; [lra|]. apply ok1000. lra. }
  assert (N1 : FNear.near (1 / 100) (rd (IZR n / IZR ow)) (IZR n / IZR ow)).
  { eapply near_weak; [apply near_rd with (k := 0%R); [apply FNear.near_refl; lra|right; lra|lra]|lra]. }
  set (q := rd (IZR n / IZR ow)) in *. pose proof (near_half _ _ _ N1 ltac:(lra)) as HH.
  assert (N2 : FNear.near (1 / 100) (IZR x * q) (IZR x * (IZR n / IZR ow))) by (apply near_scale; [lra|exact N1]).
  assert (NZ : nz (IZR x * q)).
  { destruct (Z.eq_dec x 0) as [->|Nx]; [left; ring|right]. assert (1 <= IZR x)%R by (apply IZR_le; lia). nra. }
  exists (rd (IZR x * q)). split.
  - apply dmul_R; auto. apply ok1000. assert (0 <= IZR x * q)%R by nra. split; [lra|].
    assert (IZR x * q <= 256 * (1073741824 * (11 / 10)))%R by (apply Rmult_le_compat; lra). lra.
  - eapply near_weak; [apply near_rd with (k := (1 / 100)%R); [exact N2|exact NZ|lra]|lra].
Qed.

Lemma coord_in x n ow : 1 <= x < ow - 1 -> 0 < n <= 1073741824 -> 255 <= ow <= 256 ->
  dfinite (dmul (d_of_Z x) (ddiv (d_of_Z n) (d_of_Z ow))) = true /\
  (0 < B2R (dmul (d_of_Z x) (ddiv (d_of_Z n) (d_of_Z ow))) < IZR n)%R.
Proof.
  intros Hx Hn Ho. destruct (scaled_R x n ow ltac:(lia) Hn Ho) as (a & [F ->] & N0 & N1 & N2). split; [exact F|].
  assert (Rx : (1 <= IZR x <= IZR ow - 2)%R) by (rewrite <- (minus_IZR ow 2); split; apply IZR_le; lia).
  assert (Rn : (1 <= IZR n <= 1073741824)%R) by (split; apply IZR_le; lia).
  assert (Ro : (255 <= IZR ow <= 256)%R) by (split; apply IZR_le; lia).
  assert (Y : (IZR n / 256 <= IZR x * (IZR n / IZR ow) <= IZR n * (254 / 256))%R).
  { split.
    - apply Rmult_le_reg_r with (IZR ow); [lra|]. replace (IZR x * (IZR n / IZR ow) * IZR ow)%R with (IZR x * IZR n)%R by (field; lra). nra.
    - apply Rmult_le_reg_r with (IZR ow); [lra|]. replace (IZR x * (IZR n / IZR ow) * IZR ow)%R with (IZR x * IZR n)%R by (field; lra). nra. }
  set (y := (IZR x * (IZR n / IZR ow))%R) in *. clearbody y.
  assert (U : (0 <= 1 / 50 * uf <= 1 / 1000)%R) by (unfold uf; lra). set (t := (1 / 50 * uf)%R) in *. clearbody t. split; nra.
Qed.

Lemma coord_apart x1 x2 n ow : 0 <= x1 <= 256 -> 0 <= x2 <= 256 -> 12 <= Z.abs (x1 - x2) -> 0 < n <= 1073741824 -> 255 <= ow <= 256 ->
  (IZR n / 22 <= Rabs (B2R (dmul (d_of_Z x1) (ddiv (d_of_Z n) (d_of_Z ow))) - B2R (dmul (d_of_Z x2) (ddiv (d_of_Z n) (d_of_Z ow)))))%R.
Proof.
  assert (W : forall x1 x2, 0 <= x1 <= 256 -> 0 <= x2 <= 256 -> 12 <= x1 - x2 -> 0 < n <= 1073741824 -> 255 <= ow <= 256 ->
    (IZR n / 22 <= B2R (dmul (d_of_Z x1) (ddiv (d_of_Z n) (d_of_Z ow))) - B2R (dmul (d_of_Z x2) (ddiv (d_of_Z n) (d_of_Z ow))))%R).
  { clear x1 x2. intros x1 x2 H1 H2 Hd Hn Ho.
    destruct (scaled_R x1 n ow H1 Hn Ho) as (a & [_ ->] & N0 & N1 & N2). destruct (scaled_R x2 n ow H2 Hn Ho) as (a' & [_ ->] & N0' & N1' & N2').
    assert (R1 : (0 <= IZR x1 <= 256)%R) by (split; apply IZR_le; lia). assert (R2 : (0 <= IZR x2 <= 256)%R) by (split; apply IZR_le; lia).
    assert (R3 : (12 <= IZR x1 - IZR x2)%R) by (rewrite <- minus_IZR; apply IZR_le; lia).
    assert (Rn : (1 <= IZR n <= 1073741824)%R) by (split; apply IZR_le; lia).
    assert (Ro : (255 <= IZR ow <= 256)%R) by (split; apply IZR_le; lia).
    assert (Q : (IZR n / 256 <= IZR n / IZR ow <= IZR n / 255)%R).
    { split; apply Rmult_le_reg_r with (IZR ow); try lra; replace (IZR n / IZR ow * IZR ow)%R with (IZR n) by (field; lra); nra. }
    set (q := (IZR n / IZR ow)%R) in *. clearbody q.
    assert (U : (0 <= 1 / 50 * uf <= 1 / 100000000)%R) by (unfold uf; lra). set (t := (1 / 50 * uf)%R) in *. clearbody t.
    assert (12 * (IZR n / 256) <= (IZR x1 - IZR x2) * q)%R by (apply Rmult_le_compat; lra).
    assert (0 <= IZR x1 * q <= 256 * (IZR n / 255))%R by (split; [apply Rmult_le_pos|apply Rmult_le_compat]; lra).
    assert (0 <= IZR x2 * q <= 256 * (IZR n / 255))%R by (split; [apply Rmult_le_pos|apply Rmult_le_compat]; lra).
    set (y1 := (IZR x1 * q)%R) in *. set (y2 := (IZR x2 * q)%R) in *. assert ((IZR x1 - IZR x2) * q = y1 - y2)%R by (unfold y1, y2; ring).
    assert (y1 * t <= 256 * (IZR n / 255) * (1 / 100000000))%R by (apply Rmult_le_compat; lra).
    assert (y2 * t <= 256 * (IZR n / 255) * (1 / 100000000))%R by (apply Rmult_le_compat; lra).
    lra. }
  intros H1 H2 Hd Hn Ho. destruct (Z_le_gt_dec 0 (x1 - x2)).
  - eapply Rle_trans; [apply (W x1 x2); auto; lia|apply Rle_abs].
  - rewrite Rabs_minus_sym. eapply Rle_trans; [apply (W x2 x1); auto; lia|apply Rle_abs].
Qed.

Lemma sorted_nodup l : StronglySorted Spec_Peaks.before l -> NoDup l.
Proof.
  induction l as [|x l IH]; [constructor|]. intros S. inversion S as [|? ? S1 S2]; subst. constructor; [|auto].
  intros I. rewrite Forall_forall in S2. apply S2 in I. unfold Spec_Peaks.before in I. lia.
Qed.

Lemma corners_position at2 asin w h b c : 0 < w -> 0 < h -> w * h <= 1073741824 -> corners_of at2 asin w h b c ->
  Forall (on_picture w h) (four c) /\ ForallOrdPairs (apart_by (IZR w / 22) (IZR h / 22)) (four c).
Proof.
  intros Hw Hh Hs (ow & oh & l & (e & framed & mk & L & closed & resp & EM & _ & _ & _ & _ & PF) & Hl & BF).
  assert (Hw' : w <= 1073741824) by (clear -Hw Hh Hs; nia). assert (Hh' : h <= 1073741824) by (clear -Hw Hh Hs; nia).
  destruct EM as (_ & _ & Ow & Oh & _). destruct PF as (k & _ & PK & _). unfold peaks_in_round in PK.
  destruct BF as (l' & k0 & k1 & k2 & k3 & (PM & _) & KK & -> & _).
  assert (ND : NoDup l) by (apply sorted_nodup; apply PK).
  (* a permutation of the peaks themselves *)
  destruct (Permutation_map_inv zpt l (Permutation_sym PM)) as (m & -> & Pm).
  rewrite map_length in KK.
  assert (ND' : NoDup m) by (eapply Permutation_NoDup; [apply Pm|exact ND]).
  assert (N : forall k, (k < length m)%nat -> exists p, In p l /\ nth k (map zpt m) (d0, d0) = zpt p /\ nth k m (0, 0) = p).
  { intros k' Hk. exists (nth k' m (0, 0)). split; [|split; [|reflexivity]].
    - eapply Permutation_in; [apply Permutation_sym, Pm|]. apply nth_In. exact Hk.
    - rewrite (nth_indep _ (d0, d0) (zpt (0, 0))) by (rewrite map_length; exact Hk). apply map_nth. }
  assert (ON : forall k, (k < length m)%nat -> on_picture w h (scaled w h ow oh (nth k (map zpt m) (d0, d0)))).
  { intros k' Hk. destruct (N k' Hk) as (p & Ip & -> & _). destruct (Spec_Peaks.pk_max _ _ _ _ _ _ _ PK p Ip) as (M1 & M2 & _).
    unfold on_picture, scaled, zpt. cbn [fst snd].
    destruct (coord_in (fst p) w ow M1 ltac:(lia) Ow) as [A1 A2]. destruct (coord_in (snd p) h oh M2 ltac:(lia) Oh) as [B1 B2]. tauto. }
  assert (AP : forall i j, (i < j)%nat -> (j < length m)%nat ->
    apart_by (IZR w / 22) (IZR h / 22) (scaled w h ow oh (nth i (map zpt m) (d0, d0))) (scaled w h ow oh (nth j (map zpt m) (d0, d0)))).
  { intros i j Hij Hj. destruct (N i ltac:(lia)) as (p & Ip & -> & Np). destruct (N j Hj) as (q & Iq & -> & Nq).
    assert (NE : p <> q).
    { intros E. assert (i = j); [|lia]. apply (proj1 (NoDup_nth m (0, 0)) ND'); try lia. congruence. }
    pose proof (Spec_Peaks.pk_apart _ _ _ _ _ _ _ PK p q Ip Iq NE) as D. unfold Spec_Peaks.dist2 in D.
    destruct (Spec_Peaks.pk_max _ _ _ _ _ _ _ PK p Ip) as (M1 & M2 & _). destruct (Spec_Peaks.pk_max _ _ _ _ _ _ _ PK q Iq) as (M3 & M4 & _).
    assert (C : 12 <= Z.abs (fst p - fst q) \/ 12 <= Z.abs (snd p - snd q)).
    { clear -D. set (a := fst p - fst q) in *. set (c := snd p - snd q) in *. clearbody a c.
      destruct (Z_le_gt_dec 12 (Z.abs a)); [auto|]. destruct (Z_le_gt_dec 12 (Z.abs c)); [auto|].
      assert (Z.abs a * Z.abs a <= 11 * 11) by (apply Z.mul_le_mono_nonneg; lia).
      assert (Z.abs c * Z.abs c <= 11 * 11) by (apply Z.mul_le_mono_nonneg; lia). rewrite <- !Z.abs_mul in *. lia. }
    unfold apart_by, scaled, zpt. cbn [fst snd].
    destruct C; [left|right]; apply coord_apart; auto; lia. }
  unfold four. cbn [tl tr br bl]. split.
  - repeat (apply Forall_cons; [apply ON; lia|]). apply Forall_nil.
  - repeat (apply FOP_cons; [repeat (apply Forall_cons; [apply AP; lia|]); apply Forall_nil|]). apply FOP_nil.
Qed.

(** ** The radius of the disks *)
Lemma two_percent : exists l, isd (lit 2 100) l /\ (1 / 50 <= l <= 1 / 50 + 1 / 100000000000000000)%R.
Proof.
  exists (B2R (lit 2 100)). split; [apply isd_finite; vm_compute; reflexivity|].
  assert (E : lit 2 100 = @B754_finite 53 1024 false 5764607523034235 (-58) eq_refl).
  { apply B2SF_inj. vm_compute. reflexivity. }
  rewrite E. cbn [B2R]. unfold F2R. cbn [cond_Zopp Fnum Fexp bpow].
  change (Z.pow_pos radix2 58) with 288230376151711744. lra.
Qed.

Lemma radius_ok m : 0 <= m <= 32768 ->
  let r := dmul (d_of_Z m) (lit 2 100) in dfinite r = true /\ dlt r d0 = false /\ int_part r = m / 50.
Proof.
  intros Hm r. destruct two_percent as (l & L & B). pose proof (d_of_Z_exact m ltac:(lia)) as X.
  assert (Rm : (0 <= IZR m <= 32768)%R) by (split; apply IZR_le; lia).
  assert (P : (IZR m / 50 <= IZR m * l <= IZR m / 50 + 1 / 1000000000000)%R) by (split; nra).
  assert (D : isd r (rd (IZR m * l))) by (apply dmul_R; auto; apply ok1000; lra).
  assert (N : (IZR m / 50 - 1 / 100000000 <= rd (IZR m * l) <= IZR m / 50 + 1 / 100000000)%R).
  { pose proof (rd_near (IZR m * l) 10 1024 ltac:(lia) eq_refl) as N. change (bpow radix2 (-53)) with (/ 9007199254740992)%R in N.
    rewrite Rabs_pos_eq in N by lra. specialize (N ltac:(lra)). lra. }
  assert (Q : 50 * (m / 50) <= m <= 50 * (m / 50) + 49) by (pose proof (Z.div_mod m 50 ltac:(lia)); pose proof (Z.mod_pos_bound m 50 ltac:(lia)); lia).
  set (k := m / 50) in *.
  assert (Q1 : (50 * IZR k <= IZR m <= 50 * IZR k + 49)%R) by (rewrite <- mult_IZR, <- plus_IZR; split; apply IZR_le; lia).
  assert (G : (IZR k <= rd (IZR m * l))%R) by (apply rd_ge_Z; [lra|lia]).
  assert (K0 : (0 <= IZR k)%R) by (apply IZR_le; lia).
  destruct D as [F E]. split; [exact F|]. split.
  - rewrite (dlt_R _ _ _ _ (conj F E) isd_d0). apply Rlt_bool_false. lra.
  - unfold int_part. rewrite (btrunc_R _ _ (conj F E)). rewrite Ztrunc_floor by lra. apply Zfloor_imp. rewrite plus_IZR. lra.
Qed.

(** ** Operations *)
Lemma makes_fresh s1 (m : M ptr) w h (P : buf Z -> Prop) : (forall n, orc s1 n = true) ->
  returns_fresh s1 (m s1) P -> makes s1 (unsized w h m s1) w h P.
Proof.
  intros O (p & s' & E & L & K). unfold unsized. destruct p as [|q].
  - destruct K as [_ (n & _ & F)]. rewrite O in F. discriminate F.
  - destruct K as (N & (b' & B & C) & D). rewrite (bindM_Ok _ _ _ _ _ E). exists q, s', b'. split; [reflexivity|]. auto.
Qed.

Lemma leaks_holds s s1 p b : leaks_two s s1 -> holds s p b -> holds s1 p b.
Proof.
  intros (j & k & _ & Nj & Nk & _ & _ & O) (i & -> & M). exists i. split; [reflexivity|]. rewrite O; [exact M| |]; intros ->; congruence.
Qed.

Lemma corners_in_range w h c p : usual w h -> Forall (on_picture w h) (four c) -> In p (four c) ->
  draw_ok w h 4 (dmul (d_of_Z (Z.min w h)) (lit 2 100)) (fst p) (snd p).
Proof.
  intros (U1 & U2 & U3) F I. rewrite Forall_forall in F. destruct (F p I) as (F1 & F2 & R1 & R2).
  assert (Hm : 0 <= Z.min w h <= 32768).
  { split; [lia|]. destruct (Z_le_gt_dec (Z.min w h) 32768) as [|G]; [auto|].
    assert (32769 * 32769 <= w * h) by (apply Z.mul_le_mono_nonneg; lia). lia. }
  destruct (radius_ok _ Hm) as (A1 & A2 & A3).
  assert (T : forall v n, dfinite v = true -> (0 < B2R v < IZR n)%R -> 0 <= int_part v < n).
  { intros v n Fv Rv. unfold int_part. rewrite (btrunc_R v _ (isd_finite _ Fv)). rewrite Ztrunc_floor by lra. split.
    - apply Zfloor_lub. lra.
    - apply lt_IZR. eapply Rle_lt_trans; [apply Zfloor_lb|apply Rv]. }
  pose proof (T _ _ F1 R1) as T1. pose proof (T _ _ F2 R2) as T2.
  assert (Q : 0 <= Z.min w h / 50 <= 32768) by (split; [apply Z.div_pos; lia|]; apply Z.le_trans with (Z.min w h); [apply Z.div_le_upper_bound; lia|lia]).
  unfold draw_ok. rewrite A3. repeat split; auto; lia.
Qed.

Lemma red_hex : parse_hex_color (str "FF0000") = Ok (255, 0, 0).
Proof. vm_compute. reflexivity. Qed.

Lemma disk_step w h r p s q b : draw_ok w h 4 r (fst p) (snd p) -> mem s q = Some (OBytes b) -> w * h * 4 <= blen b ->
  exists s' b', draw_disk w h 4 (Some (str "FF0000")) r (fst p) (snd p) (Ptr q) s = Ok (tt, s') /\ mem s' q = Some (OBytes b') /\
    painted w h 4 red (fun x y => filled (int_part r) (x - int_part (fst p)) (y - int_part (snd p))) b b' /\
    (forall j, j <> q -> mem s' j = mem s j) /\ nxt s' = nxt s /\ orc s' = orc s /\ tick s' = tick s.
Proof.
  intros DO M L. destruct (disk_draws w h 4 (str "FF0000") r (fst p) (snd p) s (Ptr q) b 255 0 0 DO) as (col & DC & d & s' & b' & Ed & E & M' & P & O);
    [exists q; auto|exact L|exact red_hex|]. injection Ed as <-. exists s', b'. split; [exact E|]. split; [exact M'|]. split; [|exact O].
  destruct P as (P1 & P2 & P3). split; [exact P1|]. split; [|exact P3]. intros x y k I Hk. destruct (P2 x y k I Hk) as [PA PB]. split; [|exact PB].
  intros F. rewrite (PA F). f_equal. cbn in DC. destruct DC as (C0 & C1 & C2 & C3).
  assert (KK : k = 0 \/ k = 1 \/ k = 2 \/ k = 3) by lia. destruct KK as [-> | [-> | [-> | ->]]]; auto.
Qed.

Lemma painted_union w h ch col P Q b b1 b2 : painted w h ch col P b b1 -> painted w h ch col Q b1 b2 ->
  painted w h ch col (fun x y => P x y \/ Q x y) b b2.
Proof.
  intros (A1 & A2 & A3) (B1 & B2 & B3). split; [congruence|]. split.
  - intros x y c I Hc. destruct (A2 x y c I Hc) as [PA PB]. destruct (B2 x y c I Hc) as [QA QB].
    split.
    + intros [H|H]; [|auto]. destruct (classic (Q x y)) as [K|K]; [auto|]. rewrite QB by exact K. auto.
    + intros H. rewrite QB by tauto. apply PB. tauto.
  - intros j Hj. rewrite B3 by exact Hj. apply A3. exact Hj.
Qed.

Section Ops.
Variables (atof : cstr -> f64) (exp : f64 -> f64) (at2 : f64 -> f64 -> f64) (asin pow2 : f64 -> f64) (fuel : nat) (identity : ptr).
Variables (o : pipeline_op) (w h : Z) (s : st) (p : ptr) (b : buf Z).
Hypothesis He : exp_ok exp.
Hypothesis Ha : atan2_ok at2.
Hypothesis Hf : 66565 < Z.of_nat fuel.
Hypothesis HU : usual w h.
Hypothesis Hs : w * h <= 536870911.
Hypothesis W : wf s.
Hypothesis Hp : holds s p b.
Hypothesis Hb : image (w * h * 4) b.
Hypothesis OT : forall n, orc s n = true.

Lemma do_detect : named o "detect_corners" ->
  looks at2 asin w h b s (apply_operation atof exp at2 asin pow2 fuel identity o w h p s)
    (fun _ s1 run => makes s1 run w h (fun b' => exact_image (w * h * 4) b' /\ same_bytes (w * h * 4) b b')).
Proof.
  intros N. pose proof HU as (U1 & U2 & U3). start N.
  eapply looks_weaken; [apply (detect_cases exp at2 asin fuel w h s p b He Ha ltac:(lia) ltac:(lia) U3 Hf W Hp Hb OT)|..].
  - intros E. unfold detect_op, bindM at 1. rewrite E. reflexivity.
  - intros u E. unfold detect_op, bindM at 1. rewrite E. reflexivity.
  - intros c s1 C La Le E. unfold detect_op. rewrite (bindM_Ok _ _ _ _ _ E). apply makes_fresh.
    + intros n. destruct La as (_ & -> & _). apply OT.
    + apply (copy_int_ok O w h s p b); auto; [apply La|eapply leaks_holds; eauto].
Qed.

Lemma do_draw_corners : named o "draw_corners" ->
  looks at2 asin w h b s (apply_operation atof exp at2 asin pow2 fuel identity o w h p s)
    (fun c s1 run => makes s1 run w h (red_disks w h c b)).
Proof.
  intros N. pose proof HU as (U1 & U2 & U3). start N.
  eapply looks_weaken; [apply (detect_cases exp at2 asin fuel w h s p b He Ha ltac:(lia) ltac:(lia) U3 Hf W Hp Hb OT)|..].
  - intros E. unfold draw_corners_op, bindM at 1. rewrite E. reflexivity.
  - intros u E. unfold draw_corners_op, bindM at 1. rewrite E. reflexivity.
  - intros c s1 C La Le E. unfold draw_corners_op. rewrite (bindM_Ok _ _ _ _ _ E).
    destruct (copy_int_ok O w h s p b HU Hp Hb s1 Hs (proj1 La) (leaks_holds _ _ _ _ Le Hp)) as (q & s2 & E2 & L2 & K2).
    rewrite (bindM_Ok _ _ _ _ _ E2). destruct q as [|q].
    { destruct K2 as [_ (n & _ & F)]. destruct La as (_ & O1 & _). rewrite O1, OT in F. discriminate F. }
    destruct K2 as (Nq & (b2 & M2 & X2 & G2) & O2). cbn [is_null]. cbv zeta.
    rewrite (proj1 (usual_u32 w h HU)), (proj2 (usual_u32 w h HU)).
    destruct (corners_position at2 asin w h b c ltac:(lia) ltac:(lia) U3 C) as [ON _].
    set (r := dmul (d_of_Z (Z.min w h)) (lit 2 100)) in *.
    assert (DO : forall p, In p (four c) -> draw_ok w h 4 r (fst p) (snd p)) by (intros p' I; eapply corners_in_range; eauto).
    assert (IR : int_part r = Z.min w h / 50).
    { apply radius_ok. split; [lia|]. destruct (Z_le_gt_dec (Z.min w h) 32768) as [|G]; [auto|].
      assert (32769 * 32769 <= w * h) by (apply Z.mul_le_mono_nonneg; lia). lia. }
    assert (L0 : w * h * 4 <= blen b2) by (apply X2).
    destruct (disk_step w h r (tl c) s2 q b2 (DO (tl c) ltac:(cbn; auto)) M2 L0) as (s3 & b3 & E3 & M3 & P3 & D3 & X3 & Y3 & Z3).
    rewrite (bindM_Ok _ _ _ _ _ E3).
    destruct (disk_step w h r (tr c) s3 q b3 (DO (tr c) ltac:(cbn; auto)) M3 ltac:(rewrite (proj1 P3); exact L0)) as (s4 & b4 & E4 & M4 & P4 & D4 & X4 & Y4 & Z4).
    rewrite (bindM_Ok _ _ _ _ _ E4). assert (P34 := painted_union _ _ _ _ _ _ _ _ _ P3 P4).
    destruct (disk_step w h r (br c) s4 q b4 (DO (br c) ltac:(cbn; auto)) M4 ltac:(rewrite (proj1 P34); exact L0)) as (s5 & b5 & E5 & M5 & P5 & D5 & X5 & Y5 & Z5).
    rewrite (bindM_Ok _ _ _ _ _ E5). assert (P345 := painted_union _ _ _ _ _ _ _ _ _ P34 P5).
    destruct (disk_step w h r (bl c) s5 q b5 (DO (bl c) ltac:(cbn; auto)) M5 ltac:(rewrite (proj1 P345); exact L0)) as (s6 & b6 & E6 & M6 & P6 & D6 & X6 & Y6 & Z6).
    rewrite (bindM_Ok _ _ _ _ _ E6). assert (PA := painted_union _ _ _ _ _ _ _ _ _ P345 P6).
    destruct PA as (PL & PP & _).
    assert (PX : forall x y k, inside w h x y -> 0 <= k < 4 ->
      (near_corner (filled (int_part r)) c x y -> pix b6 w 4 x y k = Some (red k)) /\
      (~ near_corner (filled (int_part r)) c x y -> pix b6 w 4 x y k = pix b w 4 x y k)).
    { intros x y k I Hk. destruct (PP x y k I Hk) as [A B]. unfold near_corner, four. split.
      - intros (p' & [<-|[<-|[<-|[<-|[]]]]] & D); apply A; auto.
      - intros NN. rewrite B.
        + unfold pix. apply G2. destruct I as [Ix Iy]. pose proof (rm_bound w h x y Ix Iy). lia.
        + intros [[[D|D]|D]|D]; apply NN; eexists; (split; [|exact D]); cbn; auto. }
    exists q, s6, b6. split; [reflexivity|]. split.
    { destruct L2 as (W2 & Or2 & T2 & Nx2). split; [|repeat split; congruence || lia].
      intros j Hj. destruct (Z.eq_dec j q) as [->|NE]; [rewrite W2 in M2; [discriminate|lia]|].
      rewrite D6, D5, D4, D3 by auto. apply W2. lia. }
    split; [exact Nq|]. split; [exact M6|]. split.
    { split.
      - split; [rewrite PL; apply X2|]. split; [rewrite PL; exact L0|]. intros i Hi.
        destruct (px_decomp w h 4 i) as (x & y & k & Hx & Hy & Hk & Ei); try lia.
        destruct (PX x y k (conj Hx Hy) Hk) as [A B]. unfold pix in A, B. rewrite <- Ei in A, B.
        destruct (classic (near_corner (filled (int_part r)) c x y)) as [S|S].
        + exists (red k). split; [auto|]. unfold red, byte. destruct (k =? 0), (k =? 3); lia.
        + rewrite (B S). apply Hb. exact Hi.
      - exists (filled (int_part r)). split; [|exact PX]. rewrite IR. apply filled_disk_like. apply Z.div_pos; lia. }
    intros i Hi. rewrite D6, D5, D4, D3 by auto. apply O2. exact Hi.
Qed.
End Ops.

(** ** The program *)
Lemma load_upright fuel file input w h b o s s1 : wf s -> usual w h -> image (w * h * 4) b ->
  (jpeg_in input -> get_exif_orientation fuel (file input) = Ok o) -> (~ jpeg_in input -> o = 1) -> (forall n, orc s n = true) ->
  plus s s1 (nxt s) -> mem s1 (nxt s) = Some (OBytes b) ->
  exists i2 w2 h2 b2 s2,
    (if is_jpeg_input input then
       (orientation <-- lift (get_exif_orientation fuel (file input)) ;; apply_exif orientation w h (Ptr (nxt s)))
     else ret (Ptr (nxt s), w, h)) s1 = Ok (Ptr i2, w2, h2, s2) /\ plus s s2 i2 /\ mem s2 i2 = Some (OBytes b2) /\
    seen o w h b w2 h2 b2 /\ usual w2 h2 /\ w2 * h2 = w * h /\ image (w2 * h2 * 4) b2.
Proof.
  intros W U Hb J1 J2 OM Pl1 M1.
  assert (K : o < 2 \/ 8 < o -> exists i2 w2 h2 b2 s2,
    Ok (Ptr (nxt s), w, h, s1) = Ok (Ptr i2, w2, h2, s2) /\ plus s s2 i2 /\ mem s2 i2 = Some (OBytes b2) /\
    seen o w h b w2 h2 b2 /\ usual w2 h2 /\ w2 * h2 = w * h /\ image (w2 * h2 * 4) b2).
  { intros Ho. exists (nxt s), w, h, b, s1. split; [reflexivity|]. split; [exact Pl1|]. split; [exact M1|].
    split; [right; auto|]. auto. }
  destruct (is_jpeg_input input) eqn:EJ.
  2:{ apply K. left. rewrite J2; [lia|]. intros J. apply is_jpeg_iff in J. congruence. }
  apply is_jpeg_iff in EJ. specialize (J1 EJ). rewrite (bindM_lift _ _ _ _ J1).
  destruct (Z_lt_dec o 2) as [L2|L2]; [rewrite apply_exif_plain by lia; apply K; auto|].
  destruct (Z_lt_dec 8 o) as [L8|L8]; [rewrite apply_exif_plain by lia; apply K; auto|].
  clear K. assert (Ho : 2 <= o <= 8) by lia.
  destruct (apply_exif_main o w h s1 (nxt s) b (proj1 (proj1 Pl1)) (conj (usual_cli _ _ U) Hb) M1 Ho)
    as (q & w2 & h2 & s2 & E & L & [(j & b2 & -> & (R1 & R2 & R3 & R4) & Up)|(_ & _ & (n & _ & F))]).
  2:{ destruct Pl1 as ((_ & O1 & _) & _). rewrite O1, OM in F. discriminate F. }
  exists j, w2, h2, b2, s2. split; [exact E|].
  destruct Pl1 as (PL & PN & PS & PO).
  assert (Nj : j <> nxt s) by (intros ->; congruence).
  split.
  { split; [eapply later_trans; eauto|]. split; [rewrite <- PO by auto; exact R1|]. split; [eauto|].
    intros k Hk. destruct (Z.eq_dec k (nxt s)) as [->|Nk]; [congruence|]. rewrite R4 by auto. apply PO. exact Nk. }
  split; [exact R2|]. split; [left; auto|]. destruct (upright_usual _ _ _ _ _ _ _ U Up) as [U2 I2]. split; [exact U2|]. split; [|exact I2].
  destruct Up as (r & c & _ & Es & _). destruct c; cbn [upright_size] in Es; injection Es as -> ->; lia.
Qed.

Lemma main_detect : forall atof atoi show2 exp atan2 asin pow2 fuel identity file decode can_write input w h b o s,
  exp_ok exp -> atan2_ok atan2 -> 66565 < Z.of_nat fuel -> wf s -> (forall n, orc s n = true) ->
  decode (file input) = Some (w, h, b) -> usual w h -> w * h <= 536870911 -> image (w * h * 4) b ->
  (jpeg_in input -> get_exif_orientation fuel (file input) = Ok o) -> (~ jpeg_in input -> o = 1) ->
  exists w1 h1 b1, seen o w h b w1 h1 b1 /\
    looks atan2 asin w1 h1 b1 s
      (main atof atoi show2 exp atan2 asin pow2 fuel identity file decode can_write [input; txt "detect_corners"] s)
      (fun _ s1 run => run = Ok ((0, None), s1)).
Proof.
  intros atof atoi show2 exp atan2 asin pow2 fuel identity file decode can_write input w h b o s He Ha Hf W OT LD U Hs Hb J1 J2.
  destruct (alloc_plus s (OBytes b) W (OT _)) as (s1 & E1 & Pl1 & M1 & _).
  destruct (load_upright fuel file input w h b o s s1 W U Hb J1 J2 OT Pl1 M1) as (i2 & w2 & h2 & b2 & s2 & E2 & Pl2 & M2 & Se & U2 & SZ & I2).
  exists w2, h2, b2. split; [exact Se|].
  set (op := mkop (txt "detect_corners") None None None None None).
  assert (O2 : orc s2 = orc s) by apply Pl2.
  assert (Lk := do_detect atof exp atan2 asin pow2 fuel identity op w2 h2 s2 (Ptr i2) b2 He Ha Hf U2 ltac:(lia)
    (proj1 (proj1 Pl2)) ltac:(exists i2; auto) I2 ltac:(rewrite O2; exact OT) eq_refl).
  unfold main. cbv zeta. cbn [List.length]. change (Z.of_nat 2 + 1) with 3.
  change (nth 1 [input; txt "detect_corners"] []) with (txt "detect_corners").
  replace (streq (txt "detect_corners") (str "detect_corners")) with true by (vm_compute; reflexivity).
  cbn [Z.ltb Z.eqb Z.compare Pos.compare Pos.compare_cont Pos.eqb andb negb skipn].
  assert (PP : parse_pipeline atof atoi show2 true [txt "detect_corners"] = Ok (Some [op])) by (vm_compute; reflexivity).
  rewrite (bindM_lift _ _ _ _ PP). cbn [nth]. rewrite LD.
  rewrite (bindM_Ok _ _ _ _ _ E1). cbn [is_null]. rewrite (bindM_Ok _ _ _ _ _ E2).
  destruct Lk as [[E N]|[[(u & E) N]|(c & s3 & C & La & Le & (q & s4 & b4 & E & L4 & N4 & M4 & _ & O4))]].
  - left. split; [|exact N]. unfold bindM at 1. unfold execute_pipeline. cbn [pipeline_loop]. unfold bindM at 1. rewrite E. reflexivity.
  - right; left. split; [|exact N]. exists u. unfold bindM at 1. unfold execute_pipeline. cbn [pipeline_loop]. unfold bindM at 1. rewrite E. reflexivity.
  - right; right.
    assert (M3i : mem s3 i2 = Some (OBytes b2)).
    { destruct Le as (j & k & _ & Nj & Nk & _ & _ & O3). rewrite O3; [exact M2| |]; intros ->; congruence. }
    assert (Nq : q <> i2) by (intros ->; congruence).
    assert (M4i : mem s4 i2 = Some (OBytes b2)) by (rewrite O4 by auto; exact M3i).
    assert (EP : execute_pipeline (apply_operation atof exp atan2 asin pow2 fuel identity) w2 h2 [op] (Ptr i2) s2 = Ok (Ptr q, w2, h2, s4)).
    { unfold execute_pipeline. cbn [pipeline_loop]. rewrite (bindM_Ok _ _ _ _ _ E). cbn [is_null]. cbn. rewrite ?Z.eqb_refl. reflexivity. }
    set (s5 := mkst (upd (mem s4) i2 None) (nxt s4) (orc s4) (tick s4)).
    set (s6 := mkst (upd (mem s5) q None) (nxt s5) (orc s5) (tick s5)).
    assert (M5 : mem s5 q = Some (OBytes b4)) by (cbn [mem s5]; rewrite upd_other by auto; exact M4).
    assert (M6 : forall i, i <> i2 -> mem s6 i = mem s3 i).
    { intros i Hi. cbn [mem s6 s5]. unfold upd. destruct (Z.eqb_spec i q) as [->|Nk]; [symmetry; exact N4|].
      replace (i =? i2) with false by lia. apply O4. exact Nk. }
    assert (M6i : mem s6 i2 = None) by (cbn [mem s6 s5]; rewrite upd_other by auto; apply upd_same).
    exists c, s6. split; [exact C|]. split.
    { unfold s6, s5. apply later_upd. apply later_upd. eapply later_trans; [apply Pl2|]. eapply later_trans; eauto. }
    split.
    { destruct Pl2 as (_ & PN & _ & PO). destruct Le as (j & k & NE & Nj & Nk & Mj & Mk & O3).
      assert (Hj : j <> i2) by (intros ->; congruence). assert (Hk : k <> i2) by (intros ->; congruence).
      exists j, k. split; [exact NE|]. split; [rewrite <- PO by auto; exact Nj|]. split; [rewrite <- PO by auto; exact Nk|].
      rewrite !M6 by auto. split; [exact Mj|]. split; [exact Mk|]. intros i H1 H2. destruct (Z.eq_dec i i2) as [->|H3]; [congruence|].
      rewrite M6 by auto. rewrite O3 by auto. apply PO. exact H3. }
    rewrite (bindM_Ok _ _ _ _ _ EP). cbn [is_null]. unfold bindM at 1. cbn [ret].
    rewrite (bindM_Ok _ _ _ _ _ (free_ok _ _ _ M4i)). cbn [ptr_eqb]. replace (q =? i2) with false by lia. cbn [negb].
    fold s5. rewrite (bindM_Ok _ _ _ _ _ (free_ok _ _ _ M5)). reflexivity.
Qed.

(** The corners returned lie on the picture, apart from one another. *)
Lemma detect_position ex at2 asin fuel w h s p b : exp_ok ex -> atan2_ok at2 ->
  0 < w -> 0 < h -> w * h <= 1073741824 -> 66565 < Z.of_nat fuel -> wf s -> holds s p b -> image (w * h * 4) b ->
  (forall n, orc s n = true) ->
  looks at2 asin w h b s (detect_corners ex at2 asin fuel p w h s) (fun c s1 run => run = Ok (c, s1) /\
    Forall (on_picture w h) (four c) /\ ForallOrdPairs (apart_by (IZR w / 22) (IZR h / 22)) (four c)).
Proof.
  intros He Ha Hw Hh Hs Hf Wf Hp Hb A.
  apply (looks_weaken _ _ _ _ _ _ _ _ _ _ _ _ (detect_cases ex at2 asin fuel w h s p b He Ha Hw Hh Hs Hf Wf Hp Hb A)); auto.
  intros c s1 C _ _ R. split; [exact R|]. exact (corners_position at2 asin w h b c Hw Hh Hs C).
Qed.
