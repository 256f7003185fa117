(** * P_Smart: proofs about fcv_bw_smart *)
From Coq Require Import Reals Lra.
From Flocq Require Import Core.
From Verif Require Import Base BaseLemmas F FLemmas Heap HeapLemmas Spec Spec_Blur Spec_Smart.
From Verif Require Import ExUtil M_Color P_Color M_Otsu P_Otsu M_Blur P_Blur M_Smart.
Local Open Scope Z_scope.

Lemma tenth_R : exists l, isd (lit 1 10) l /\ (1 / 10 <= l <= 1 / 10 + 1 / 100000000000000000)%R.
Proof.
  exists (B2R (lit 1 10)). split; [apply isd_finite; vm_compute; reflexivity|].
  assert (E : lit 1 10 = @B754_finite 53 1024 false 7205759403792794 (-56) eq_refl).
  { apply B2SF_inj. vm_compute. reflexivity. }
  rewrite E. cbn [B2R]. unfold F2R. cbn [cond_Zopp Fnum Fexp bpow].
  change (Z.pow_pos radix2 56) with 72057594037927936. lra.
Qed.

Lemma radius_R n w h : n = w * h -> 0 < w < 4294967296 -> 0 < h < 4294967296 -> n <= 4503599627370496 ->
  exists r, isd (blur_radius w h) r /\
    (sqrt (IZR n) / 10 - 1 / 100000000 <= r <= sqrt (IZR n) / 10 + 1 / 100000000)%R /\
    (1 / 100 <= r)%R /\
    (n <= 100000000 -> (r <= 1000)%R) /\ (100000000 < n -> (1000 < r)%R).
Proof.
  intros En Hw Hh Hn. assert (1 <= n) by nia. destruct tenth_R as (l & Hl & Bl). unfold blur_radius.
  assert (P : isd (dmul (d_of_Z w) (d_of_Z h)) (IZR n)).
  { subst n. rewrite mult_IZR. pose proof (dmul_R _ _ _ _ (d_of_Z_exact w ltac:(lia)) (d_of_Z_exact h ltac:(lia))) as D.
    rewrite <- mult_IZR in *. rewrite rd_IZR in D by lia. apply D. apply bpow_big. lia. }
  assert (S : isd (dsqrt (dmul (d_of_Z w) (d_of_Z h))) (rd (sqrt (IZR n)))) by (apply dsqrt_R; auto; apply IZR_le; lia).
  set (q := sqrt (IZR n)) in *.
  assert (Q1 : (1 <= q)%R) by (rewrite <- sqrt_1; apply sqrt_le_1_alt; apply IZR_le; lia).
  assert (Q2 : (q <= 67108864)%R).
  { unfold q. replace 67108864%R with (sqrt (67108864 * 67108864)) by (apply sqrt_square; lra). apply sqrt_le_1_alt.
    rewrite <- mult_IZR. apply IZR_le. lia. }
  assert (N1 := rd_near q 26 67108864%R ltac:(lia) ltac:(cbn [bpow]; reflexivity) ltac:(apply Rabs_le; lra)).
  change (bpow radix2 (-53)) with (/ 9007199254740992)%R in N1.
  set (q' := rd q) in *.
  assert (B1 : (0 <= q' * l <= 8388608)%R) by (split; nra).
  exists (rd (q' * l)).
  assert (D : isd (dmul (dsqrt (dmul (d_of_Z w) (d_of_Z h))) (lit 1 10)) (rd (q' * l))).
  { apply dmul_R; auto. apply (abs_big _ 8388608); [apply Rabs_le; lra|lia]. }
  assert (N2 := rd_near (q' * l) 23 8388608%R ltac:(lia) ltac:(cbn [bpow]; reflexivity) ltac:(apply Rabs_le; lra)).
  change (bpow radix2 (-53)) with (/ 9007199254740992)%R in N2.
  assert (N3 : (q / 10 - 1 / 200000000 <= q' * l <= q / 10 + 1 / 200000000)%R) by (split; nra).
  split; [exact D|]. split; [split; lra|]. split; [lra|]. split.
  - intros Hs. assert (q <= 10000)%R.
    { unfold q. replace 10000%R with (sqrt (10000 * 10000)) by (apply sqrt_square; lra). apply sqrt_le_1_alt.
      rewrite <- mult_IZR. apply IZR_le. lia. }
    assert (Q : (q' <= 10000)%R) by (apply rd_le_Z; auto; lia).
    assert (E : isd (dmul (d_of_Z 10000) (lit 1 10)) (rd (10000 * l))).
    { apply dmul_R; auto. - apply d_of_Z_exact; lia. - apply (abs_big _ 10000); [apply Rabs_le; split; nra|lia]. }
    assert (E' : dmul (d_of_Z 10000) (lit 1 10) = d_of_Z 1000) by (apply B2SF_inj; vm_compute; reflexivity).
    rewrite E' in E. destruct E as [_ E]. destruct (d_of_Z_exact 1000 ltac:(lia)) as [_ E2]. rewrite E2 in E.
    rewrite E. unfold rd. apply gr_le; try reflexivity. apply Rmult_le_compat_r; lra.
  - intros Hs. assert (10000 + 1 / 50000 <= q)%R; [|lra].
    unfold q. replace (10000 + 1 / 50000)%R with (sqrt ((10000 + 1 / 50000) * (10000 + 1 / 50000))) by (apply sqrt_square; lra).
    apply sqrt_le_1_alt. assert (IZR 100000001 <= IZR n)%R by (apply IZR_le; lia). lra.
Qed.

Lemma clamp_to_byte v : clamp_px v = to_byte v.
Proof. unfold clamp_px, to_byte. destruct (Z.ltb_spec v 0), (Z.ltb_spec 255 v); lia. Qed.
Lemma to_byte_range v : 0 <= to_byte v < 256.
Proof. unfold to_byte. lia. Qed.

Lemma high_freq_ok n gb bb (f : Z -> Z) : 0 < n <= 1073741824 ->
  (forall i, 0 <= i < n -> exists g b, bget gb (i * 4) = Some g /\ bget bb (i * 4) = Some b /\ f i = to_byte (127 + g - b)) ->
  n * 4 <= blen gb -> n * 4 <= blen bb ->
  exists hb, high_freq_loop n gb bb (bnew (n * 4)) = Ok hb /\ grays n f hb.
Proof.
  intros Hn H Lg Lb. unfold high_freq_loop. rewrite for_u32_small by lia.
  destruct (loop1d_writes (n * 4) 4 n (fun i => i * 4)
     (fun i c => Some (if c =? 3 then 255 else f i))
     (fun i dst => let rgba_idx := u32 (i * 4) in
        g <- load gb rgba_idx ;; b <- load bb rgba_idx ;;
        put_gray32 dst rgba_idx (u8 (clamp_px (127 + g - b))))
     (bnew (n * 4))) as [b [E [L G]]]; try nia.
  - reflexivity.
  - intros i Hi b Hb. cbv zeta. rewrite u32_small by lia. destruct (H i Hi) as (g & v & E1 & E2 & E3).
    rewrite (load_ok gb (i * 4) g) by (auto; lia). cbn [bind].
    rewrite (load_ok bb (i * 4) v) by (auto; lia). cbn [bind].
    rewrite clamp_to_byte. rewrite u8_small by apply to_byte_range. rewrite <- E3.
    destruct (put_gray32_ok b (i * 4) (f i)) as [b' [E' [L' G']]]; try lia.
    exists b'; split; [auto|]. split; [lia|exact G'].
  - exists b; split; auto. split; auto.
Qed.

Lemma fresh_calls f w h s p b P : wf s -> holds s p b -> returns_fresh s (f w h p s) P ->
  returns_fresh s (f w h p s) (fun b' => P b' /\ calls f w h b b').
Proof.
  intros Hwf Hp (q & s' & E & L & R). exists q, s'. split; auto. split; auto. destruct q as [|q]; auto.
  destruct R as (R1 & (b' & R2 & R3) & R4). split; auto. split; auto. exists b'. split; auto. split; auto.
  exists s, p, q, s'. repeat split; auto. exists q. auto.
Qed.

(** The heap shell of bw_smart. *)
Lemma smart_shell e w h dbl s d (PG PQ : buf Z -> Prop) (PB : buf Z -> buf Z -> Prop) :
  wf s -> dims_ok w h ->
  returns_fresh s (grayscale w h (Ptr d) s) PG ->
  (forall s1 q b, wf s1 -> mem s1 q = Some (OBytes b) -> PG b ->
     returns_fresh s1 (apply_gaussian_blur e w h (blur_radius w h) (Ptr q) s1) (PB b)) ->
  (forall gb bb, PG gb -> PB gb bb -> exists hb, high_freq_loop (w * h) gb bb (bnew (w * h * 4)) = Ok hb /\
     forall s2 q, wf s2 -> mem s2 q = Some (OBytes hb) -> returns_fresh s2 (otsu_threshold_rgba w h dbl (Ptr q) s2) PQ) ->
  returns_fresh s (bw_smart e w h dbl (Ptr d) s) PQ.
Proof.
  unfold dims_ok, is_u32, SIZE_MAX; intros Hwf (Hw & Hh & Hw0 & Hh0 & HS) HG HB HH.
  unfold bw_smart. cbn [is_null orb].
  replace (w =? 0) with false by lia. replace (h =? 0) with false by lia. cbn [orb].
  destruct HG as (g & s1 & E1 & L1 & R1). rewrite (bindM_Ok _ _ _ _ _ E1). clear E1.
  destruct g as [|g]; cbn [is_null].
  { exists Null, s1. split; [reflexivity|]. auto. }
  destruct R1 as (N1 & (gb & M1 & PG1) & O1).
  destruct L1 as (W1 & Or1 & T1 & X1).
  destruct (HB s1 g gb W1 M1 PG1) as (bl & s2 & E2 & L2 & R2). rewrite (bindM_Ok _ _ _ _ _ E2). clear E2.
  destruct L2 as (W2 & Or2 & T2 & X2). pose proof (holds_lt s1 g _ W1 M1) as Lg.
  destruct bl as [|bl]; cbn [is_null].
  { destruct R2 as [R2 (n & Hn & Fn)].
    erewrite bindM_Ok; [|eapply free_ok; rewrite R2; exact M1]. cbv beta. unfold ret.
    eexists _, _. split; [reflexivity|]. split.
    - split; [|cbn [orc tick nxt]; repeat split; try congruence; lia].
      intros i Hi. cbn [mem nxt] in *. unfold upd. destruct (i =? g); auto.
    - cbv iota. split.
      + intros i. cbn [mem]. unfold upd. destruct (Z.eqb_spec i g) as [->|]; [auto|]. rewrite R2. auto.
      + exists n. cbn [tick]. split; [lia|]. rewrite <- Or1. auto. }
  destruct R2 as (N2 & (bb & M2 & PB2) & O2).
  assert (Hgb : g <> bl) by (intros ->; congruence).
  assert (M2g : mem s2 g = Some (OBytes gb)) by (rewrite O2; auto).
  pose proof (holds_lt s2 bl _ W2 M2) as Lb.
  assert (SIZE_MAX / h <? w = false) as ->.
  { unfold SIZE_MAX; apply Z.ltb_ge. apply Z.div_le_lower_bound; nia. }
  cbv zeta. rewrite (u64_small (w * h)) by nia.
  replace (SIZE_MAX / 4 <? w * h) with false by (symmetry; apply Z.ltb_ge; apply Z.div_le_lower_bound; unfold SIZE_MAX; lia).
  rewrite u64_small by nia. unfold malloc_bytes.
  destruct (alloc_cases s2 (OBytes (bnew (w * h * 4))) W2) as [[E O]|[E O]]; rewrite (bindM_Ok _ _ _ _ _ E); clear E; cbn [is_null].
  { erewrite bindM_Ok; [|eapply free_ok; cbn [mem]; exact M2g]. cbv beta. cbn [mem nxt orc tick].
    erewrite bindM_Ok; [|eapply free_ok; cbn [mem]; rewrite upd_other by auto; exact M2]. cbv beta. cbn [mem nxt orc tick]. unfold ret.
    eexists _, _. split; [reflexivity|]. split.
    - split; [|cbn [orc tick nxt]; repeat split; try congruence; lia].
      intros i Hi. cbn [mem nxt] in *. unfold upd. destruct (i =? g), (i =? bl); auto.
    - cbv iota. split.
      + intros i. cbn [mem]. unfold upd. destruct (Z.eqb_spec i bl) as [->|]; [rewrite <- O1; auto|].
        destruct (Z.eqb_spec i g) as [->|]; [auto|]. rewrite O2, O1; auto.
      + exists (tick s2). cbn [tick]. split; [lia|]. rewrite <- Or1, <- Or2. auto. }
  pose proof (holds_lt s2 g _ W2 M2g) as Lg2.
  destruct (HH gb bb PG1 PB2) as (hb & EH & HQ).
  hget. hget. hget. hlift EH. hput. hfree. hfree.
  set (s3 := mkst _ _ _ _).
  assert (W3 : wf s3).
  { intros i Hi. subst s3. cbn [mem nxt] in *. unfold upd. destruct (i =? bl); auto. destruct (i =? g); auto.
    replace (i =? nxt s2) with false by lia. apply W2. lia. }
  assert (M3 : mem s3 (nxt s2) = Some (OBytes hb)).
  { subst s3. mem_lookup. }
  assert (O3 : forall j, j <> nxt s2 -> mem s3 j = mem s j).
  { intros j Hj. subst s3. cbn [mem]. unfold upd. destruct (Z.eqb_spec j bl) as [->|Jb].
    - rewrite <- O1; auto.
    - destruct (Z.eqb_spec j g) as [->|Jg]; [auto|]. replace (j =? nxt s2) with false by lia. rewrite O2, O1; auto. }
  destruct (HQ s3 (nxt s2) W3 M3) as (q & s4 & E4 & L4 & R4). rewrite (bindM_Ok _ _ _ _ _ E4). clear E4.
  destruct L4 as (W4 & Or4 & T4 & X4). subst s3. cbn [orc tick nxt] in Or4, T4, X4.
  assert (M4 : mem s4 (nxt s2) = Some (OBytes hb)).
  { destruct q as [|q]; [destruct R4 as [R4 _]; rewrite R4; auto|]. destruct R4 as (A & _ & C). rewrite C; auto. intros <-. rewrite A in M3. discriminate. }
  erewrite bindM_Ok; [|eapply free_ok; exact M4]. cbv beta. unfold ret.
  assert (NN : mem s (nxt s2) = None) by (apply Hwf; lia).
  eexists _, _. split; [reflexivity|]. split.
  { split; [|cbn [orc tick nxt]; repeat split; try congruence; lia].
    intros i Hi. cbn [mem nxt] in *. unfold upd. destruct (i =? nxt s2); auto. }
  destruct q as [|q].
  - destruct R4 as [R4 (n & Hn & Fn)]. split.
    + intros i. cbn [mem]. unfold upd. destruct (Z.eqb_spec i (nxt s2)) as [->|]; [auto|]. rewrite R4. auto.
    + cbn [orc tick] in *.
      exists n. cbn [tick]. split; [lia|]. rewrite <- Or1, <- Or2. auto.
  - destruct R4 as (A & (b' & M5 & Q5) & C). assert (Hq : q <> nxt s2) by (intros ->; rewrite A in M3; discriminate).
    split; [rewrite <- O3; auto|]. split.
    + exists b'. split; auto. cbn [mem]. rewrite upd_other; auto.
    + intros j Hj. cbn [mem]. unfold upd. destruct (Z.eqb_spec j (nxt s2)) as [->|]; [auto|]. rewrite C; auto.
Qed.

Lemma mean_ext r n x f g : (forall i, 0 <= i < n -> f i = g i) -> mean r n x f = mean r n x g.
Proof.
  intros H. unfold mean. f_equal. unfold total.
  generalize (Z.to_nat (Zfloor r - - Zfloor r + 1)) as m. generalize (- Zfloor r) as lo. intros lo m. revert lo.
  induction m; intros lo; cbn [rsum]; [reflexivity|]. rewrite IHm. f_equal. unfold inside.
  destruct ((0 <=? x + lo) && (x + lo <? n)) eqn:E; auto. rewrite H by lia. reflexivity.
Qed.

Lemma smart_ok e w h dbl s p b : exp_ok e -> dims_ok w h -> w * h <= 100000000 ->
  wf s -> holds s p b -> image (w * h * 4) b ->
  returns_fresh s (bw_smart e w h dbl p s) (fun b' => exact_image (w * h * 4) b' /\
    exists r d hf, (Rabs (r - sqrt (IZR (w * h)) / 10) <= 1 / 100000000)%R /\
      detail w h r (gray_at b w) d /\
      exact_image (w * h * 4) hf /\
      (forall x y, 0 <= x < w -> 0 <= y < h -> opaque_gray hf w x y (d x y)) /\
      calls (fun w h p => otsu_threshold_rgba w h dbl p) w h hf b').
Proof.
  intros He D Hn Hwf [d [-> Hd]] Hi. pose proof D as (D1 & D2 & D3 & D4 & D5). unfold is_u32, SIZE_MAX in D1, D2, D5.
  destruct (radius_R (w * h) w h eq_refl ltac:(lia) ltac:(lia) ltac:(lia)) as (r & Hr & Nr & Lr & Ur & _). specialize (Ur Hn).
  eapply smart_shell with (PB := fun gb => blurred w h r gb); auto.
  - apply (grayscale_ok w h s (Ptr d) b); auto; [lia|]. exists d. auto.
  - intros s1 q gb W1 M1 (X1 & G1). destruct Hr as [Fr Vr]. rewrite <- Vr. apply blur_ok; auto; try lia; try lra.
    + exists q; auto.
    + apply X1.
  - intros gb bb (X1 & G1) (X2 & B2).
    set (f := fun i => to_byte (127 + val gb (i * 4) - val bb (i * 4))).
    destruct (high_freq_ok (w * h) gb bb f) as (hb & E & Hh).
    + nia.
    + intros i Hi'. destruct X1 as [_ X1], X2 as [_ X2]. destruct (proj2 X1 (i * 4) ltac:(lia)) as (g & Eg & _). destruct (proj2 X2 (i * 4) ltac:(lia)) as (v & Ev & _).
      exists g, v. split; auto. split; auto. unfold f, val. rewrite Eg, Ev. reflexivity.
    + destruct X1; lia.
    + destruct X2; lia.
    + exists hb. split; auto. intros s2 q W2 M2.
      assert (Xh : exact_image (w * h * 4) hb) by (apply (grays_exact _ f); auto; intros; apply to_byte_range).
      eapply returns_fresh_weaken; [|apply (fresh_calls (fun w h p => otsu_threshold_rgba w h dbl p) w h s2 (Ptr q) hb); [auto|exists q; auto|apply (otsu_ok w h s2 (Ptr q) hb dbl); auto; [lia|exists q; auto|apply Xh]]].
      intros b' [[Xb' _] C]. split; auto. exists r, (fun x y => f (y * w + x)), hb. split; [apply Rabs_le; lra|].
      split; [|split; [auto|split; [|exact C]]].
      * intros x y Hx Hy. exists (val bb ((y * w + x) * 4)). destruct (B2 x y Hx Hy) as [_ B]. destruct (B 0 ltac:(lia)) as (v & Ev & Bv).
        unfold pix in Ev. rewrite Z.add_0_r in Ev. split.
        -- unfold f. do 2 f_equal. f_equal. destruct (G1 x y Hx Hy) as (A & _). unfold pix in A. rewrite Z.add_0_r in A. unfold val. now rewrite A.
        -- unfold val at 1 2. rewrite Ev. unfold mean2 in *.
           rewrite (mean_ext r h y _ (fun y' => mean r w x (fun x' => IZR (gray_at b w x' y')))) in Bv; auto.
           intros y' Hy'. apply mean_ext. intros x' Hx'. destruct (G1 x' y' Hx' Hy') as (A & _). unfold pixv. now rewrite A.
      * intros x y Hx Hy. apply (grays_opaque w h f); auto.
Qed.

Lemma smart_big e w h dbl s p b : is_u32 w -> is_u32 h -> 100000000 < w * h <= 1073741824 ->
  wf s -> holds s p b -> image (w * h * 4) b -> returns_null s (bw_smart e w h dbl p s).
Proof.
  intros Hw Hh Hn Hwf [d [-> Hd]] Hi. unfold is_u32 in *. assert (0 < w /\ 0 < h) as [W0 H0] by nia.
  destruct (radius_R (w * h) w h eq_refl ltac:(lia) ltac:(lia) ltac:(lia)) as (r & [Fr Vr] & _ & _ & _ & Ur). specialize (Ur ltac:(lia)).
  unfold bw_smart. cbn [is_null orb].
  replace (w =? 0) with false by lia. replace (h =? 0) with false by lia. cbn [orb].
  assert (D : dims_ok w h) by (unfold dims_ok, is_u32, SIZE_MAX; lia).
  destruct (grayscale_ok w h s (Ptr d) b Hwf D ltac:(lia) (ex_intro _ d (conj eq_refl Hd)) Hi) as (g & s1 & E1 & L1 & R1).
  rewrite (bindM_Ok _ _ _ _ _ E1). destruct g as [|g]; cbn [is_null].
  { exists s1. split; [reflexivity|]. split; auto. apply R1. }
  destruct R1 as (N1 & (gb & M1 & _) & O1). destruct L1 as (W1 & Or1 & T1 & X1).
  erewrite bindM_Ok; [|apply blur_rejects; do 5 right; unfold SIZE_MAX; rewrite Vr; split; [lia|split; [lia|split; [lia|split; [auto|lra]]]]]. cbv beta. cbn [is_null].
  erewrite bindM_Ok; [|eapply free_ok; exact M1]. cbv beta. unfold ret.
  eexists. split; [reflexivity|]. split.
  - split; [|cbn [orc tick nxt]; repeat split; try congruence; lia].
    intros i Hi'. cbn [mem nxt] in *. unfold upd. destruct (i =? g); auto.
  - intros i. cbn [mem]. unfold upd. destruct (Z.eqb_spec i g) as [->|]; auto.
Qed.

Lemma smart_rejects e w h dbl s p : wf s -> p = Null \/ w = 0 \/ h = 0 -> returns_null s (bw_smart e w h dbl p s).
Proof.
  intros Hwf Hbad. pose proof (returns_null_ret s Hwf) as R. unfold bw_smart.
  replace (is_null p || (w =? 0) || (h =? 0)) with true; [exact R|].
  destruct Hbad as [->|[->| ->]]; cbn; rewrite ?orb_true_r; reflexivity.
Qed.

(** ** Small pictures *)

Lemma bind_same {A B} (m : M A) (k k' : A -> M B) s :
  (forall a s', m s = Ok (a, s') -> k a s' = k' a s') -> bindM m k s = bindM m k' s.
Proof. intros H. unfold bindM. destruct (m s) as [[a s']| | |] eqn:E; auto. Qed.

Lemma blur_same_exp e1 e2 radius :
  (forall n b, to_u32 (dadd (dmul (d_of_Z 2) radius) F.d1) = Ok n -> fill_kernel e1 radius n b = fill_kernel e2 radius n b) ->
  forall w h p s, apply_gaussian_blur e1 w h radius p s = apply_gaussian_blur e2 w h radius p s.
Proof.
  intros H w h p s. unfold apply_gaussian_blur.
  destruct (_ || _); auto. destruct (_ || _); auto. destruct (_ <? _); auto. cbv zeta. destruct (_ <? _); auto.
  destruct (deq _ _); auto. destruct (dlt _ _); auto.
  apply bind_same. intros p1 s1 _. destruct (is_null p1); auto.
  apply bind_same. intros n s2 E. assert (En : to_u32 (dadd (dmul (d_of_Z 2) radius) F.d1) = Ok n).
  { unfold lift in E. destruct (to_u32 _); try discriminate. congruence. }
  apply bind_same. intros p2 s3 _. destruct (is_null p2); auto.
  apply bind_same. intros kb s4 _. rewrite (H n kb En). reflexivity.
Qed.

Lemma smart_same_exp e1 e2 w h :
  (forall p s, apply_gaussian_blur e1 w h (blur_radius w h) p s = apply_gaussian_blur e2 w h (blur_radius w h) p s) ->
  forall dbl p s, bw_smart e1 w h dbl p s = bw_smart e2 w h dbl p s.
Proof.
  intros H dbl p s. unfold bw_smart. destruct (_ || _); [reflexivity|].
  apply bind_same. intros p1 s1 _. destruct (is_null p1); [reflexivity|].
  generalize (H p1 s1). generalize (apply_gaussian_blur e1 w h (blur_radius w h) p1), (apply_gaussian_blur e2 w h (blur_radius w h) p1).
  intros m1 m2 E. unfold bindM at 1. rewrite E. reflexivity.
Qed.

(** In a 6x6 picture the radius is 0.6 and all weights are exp(0). *)
Lemma kernel66 e i : exp_ok e -> i = 0 \/ i = 1 ->
  kernel_at e (blur_radius 6 6) i = kernel_at (fun _ => F.d1) (blur_radius 6 6) i.
Proof.
  intros (E0 & _) Hi. unfold kernel_at.
  assert (to_i32 (dsub (d_of_Z i) (blur_radius 6 6)) = Ok 0) as -> by (destruct Hi as [-> | ->]; vm_compute; reflexivity).
  cbn [bind]. change (ck32 (0 * 0)) with (Ok 0). cbn [bind]. change (ck32 (- 0)) with (Ok 0). cbn [bind].
  assert (d_of_f (fdiv (f_of_Z 0) (two_sigma_sq (blur_radius 6 6))) = B754_zero false) as ->.
  { apply B2SF_inj. vm_compute. reflexivity. }
  now rewrite E0.
Qed.

Lemma smart66 e dbl p s : exp_ok e -> bw_smart e 6 6 dbl p s = bw_smart (fun _ => F.d1) 6 6 dbl p s.
Proof.
  intros He. apply smart_same_exp. intros. apply blur_same_exp. intros n b En.
  assert (n = 2) as -> by (vm_compute in En; congruence).
  unfold fill_kernel, for_. change (Z.to_nat (2 - 0)) with 2%nat. cbn [iter_n].
  rewrite (kernel66 e 0), (kernel66 e (0 + 1)) by auto. reflexivity.
Qed.

(** Light gray with one dark pixel *)
Definition dot : list Z :=
  concat (map (fun i => let v := if Nat.eqb i 18 then 20 else 200 in [v; v; v; 255]) (seq 0 36)).

Lemma smart_dot : forall e, exp_ok e ->
  exists q s' b', bw_smart e 6 6 false (Ptr 0) (st1 dot) = Ok (Ptr q, s') /\ mem s' q = Some (OBytes b') /\
    forall x y, 0 <= x < 6 -> 0 <= y < 6 -> pix b' 6 4 x y 0 = Some (if (x =? 0) && (y =? 3) then 255 else 0).
Proof.
  intros e He.
  assert (R : exists q s' b', bw_smart (fun _ => F.d1) 6 6 false (Ptr 0) (st1 dot) = Ok (Ptr q, s') /\
     mem s' q = Some (OBytes b') /\
     forallb (fun y => forallb (fun x => match pix b' 6 4 x y 0 with Some v => v =? (if (x =? 0) && (y =? 3) then 255 else 0) | None => false end)
       [0;1;2;3;4;5]) [0;1;2;3;4;5] = true).
  { apply run_split. vm_compute. reflexivity. }
  destruct R as (q & s' & b' & E & M & P). exists q, s', b'. rewrite smart66 by auto. split; auto. split; auto.
  intros x y Hx Hy. rewrite forallb_forall in P. assert (Iy : In y [0;1;2;3;4;5]) by (cbn; lia). assert (Ix : In x [0;1;2;3;4;5]) by (cbn; lia).
  specialize (P y Iy). rewrite forallb_forall in P. specialize (P x Ix). destruct (pix b' 6 4 x y 0); [|discriminate].
  f_equal. lia.
Qed.

Lemma to_byte_le a b : a <= b -> to_byte a <= to_byte b.
Proof. unfold to_byte. lia. Qed.

Lemma smart_order e w h dbl s p b : exp_ok e -> dims_ok w h -> w * h <= 100000000 ->
  wf s -> holds s p b -> image (w * h * 4) b ->
  returns_fresh s (bw_smart e w h dbl p s) (fun b' =>
    exists r, (Rabs (r - sqrt (IZR (w * h)) / 10) <= 1 / 100000000)%R /\
      forall x y x' y' v v', 0 <= x < w -> 0 <= y < h -> 0 <= x' < w -> 0 <= y' < h ->
        (rise w h r b x y + 5 / 2 <= rise w h r b x' y')%R ->
        pix b' w 4 x y 0 = Some v -> pix b' w 4 x' y' 0 = Some v' -> v <= v').
Proof.
  intros He D Hn Hwf Hp Hi. eapply returns_fresh_weaken; [|apply (smart_ok e w h dbl s p b); auto].
  intros b' (Xb & r & d & hf & Hr & Hd & Xh & Gh & C). exists r. split; auto.
  intros x y x' y' v v' Hx Hy Hx' Hy' Hle V V'.
  apply (otsu_monotone dbl w h hf b' x y x' y'); auto; [lia|apply Xh|].
  rewrite (opaque_gray_at _ _ _ _ _ (Gh x y Hx Hy)), (opaque_gray_at _ _ _ _ _ (Gh x' y' Hx' Hy')).
  destruct (Hd x y Hx Hy) as (m & -> & Bm). destruct (Hd x' y' Hx' Hy') as (m' & -> & Bm'). apply to_byte_le.
  unfold rise in Hle. assert (gray_at b w x y - m <= gray_at b w x' y' - m'); [|lia].
  apply le_IZR. rewrite !minus_IZR. lra.
Qed.

Lemma smart_big_ex : wf (st_const (10001 * 10000 * 4) 7) /\
  holds (st_const (10001 * 10000 * 4) 7) (Ptr 0) (bconst (10001 * 10000 * 4) 7) /\
  image (10001 * 10000 * 4) (bconst (10001 * 10000 * 4) 7).
Proof. split; [apply wf_st_const|]. split; [exists 0; split; reflexivity|]. apply image_const. unfold byte. lia. Qed.
