From Coq Require Import Reals.
From Flocq Require Import Core.
From Verif Require Import Base BaseLemmas F Heap Spec M_Haskell Spec_Haskell.
From Verif Require Import M_Color M_Geom M_Otsu T_Geom T_Color T_Otsu.
From Verif Require HeapLemmas Spec_Trim Spec_Resize.
Open Scope Z_scope.

Lemma u32_id x : 0 <= x < 4294967296 -> u32 x = x.
Proof. intros. unfold u32, U32. apply Z.mod_small. lia. Qed.
Lemma s32_id x : -2147483648 <= x <= 2147483647 -> s32 x = x.
Proof. intros. unfold s32, U32. rewrite Z.mod_small; lia. Qed.
Lemma mul3_id a b c : 0 <= a * b -> 0 < c -> a * b * c < 4294967296 -> u32 (mul3 a b c) = a * b * c.
Proof. intros. unfold mul3. assert (0 <= a * b * c) by nia. assert (a * b <= a * b * c) by nia.
  rewrite (u32_id (a * b)) by lia. rewrite !u32_id; auto; rewrite u32_id; lia. Qed.
Lemma mul3_i32_id a b c : 0 <= a * b -> 0 < c -> a * b * c <= 2147483647 -> mul3_i32 a b c = a * b * c.
Proof. intros. unfold mul3_i32. assert (0 <= a * b * c) by nia. assert (a * b <= a * b * c) by nia.
  rewrite (s32_id (a * b)) by lia. apply s32_id. lia. Qed.

Lemma read_from_ok b n k : image (Z.of_nat n) b -> forall i, 0 <= i -> (Z.to_nat i + k = n)%nat ->
  exists l, read_from b i k = Ok l /\ length l = k /\ forall j, (j < k)%nat -> nth_error l j = bget b (i + Z.of_nat j).
Proof.
  intros [Hl Hi]. induction k; intros i Hi0 He; cbn [read_from].
  - exists []. repeat split; auto. intros; lia.
  - destruct (Hi i) as (v & Hv & _); [lia|].
    unfold load, inb. destruct ((0 <=? i) && (i <? blen b)) eqn:E; [|lia]. rewrite Hv. cbn [bind].
    destruct (IHk (i + 1)) as (l & Hr & Hlen & Hn); [lia|lia|]. rewrite Hr. cbn [bind].
    exists (v :: l). split; [reflexivity|]. split; [cbn; lia|].
    intros [|j] Hj; cbn [nth_error]; [now rewrite Z.add_0_r|].
    rewrite Hn by lia. f_equal. lia.
Qed.

Lemma new_vec_intro s s' i b n (P : buf Z -> Prop) : later s s' -> 0 <= n -> mem s i = None -> mem s' i = Some (OBytes b) -> exact_image n b -> P b ->
  (forall j, j <> i -> mem s' j = mem s j) -> new_vec s s' (mkvec (Ptr i) n) n P.
Proof.
  intros Hla Hn Hf Hm [Hl Hi] HP Ho. split; [reflexivity|]. exists i, b. cbn [v_ptr v_len].
  split; [reflexivity|]. split; [assumption|]. split; [assumption|]. split; [assumption|]. split; [split; assumption|]. split; [assumption|]. split.
  - destruct (read_from_ok b (Z.to_nat n) (Z.to_nat n) ltac:(rewrite Z2Nat.id by lia; exact Hi) 0 ltac:(lia) ltac:(lia)) as (l & Hr & Hll & Hln).
    exists l. unfold read_vec, get_bytes, get_obj, bindM, lift, ret. cbn [v_ptr v_len]. rewrite Hm. rewrite Hr. split; [reflexivity|].
      split; [rewrite Hll, Hl; lia|]. intros j Hj. rewrite Hln by lia. f_equal. lia.
  - unfold finalize, free. cbn [v_ptr]. rewrite Hm. eexists. split; [reflexivity|].
    intros j. cbn [mem]. unfold upd. destruct (Z.eqb_spec j i); [now subst|auto].
Qed.

Lemma with_ok s v f L n (P : buf Z -> Prop) : returns_fresh s (f (v_ptr v) s) (fun b => exact_image n b /\ P b) -> 0 <= n -> u32 L = n ->
  hs_returns s (withImageData v f L s) n P.
Proof.
  intros (p & s' & Hr & Hla & H) Hn HL. unfold withImageData, bindM. rewrite Hr.
  destruct p as [|i]; cbn [is_null].
  - exists None, s'. repeat split; try apply Hla; apply H.
  - exists (Some (mkvec (Ptr i) n)), s'. unfold ret, makeVector. rewrite HL. split; [reflexivity|]. split; [exact Hla|].
    destruct H as (Hf & (b & Hb & He & HP) & Ho). eapply new_vec_intro; eauto.
Qed.

Lemma with_throws s v f L : returns_null s (f (v_ptr v) s) -> hs_throws s (withImageData v f L s).
Proof.
  intros (s' & Hr & Hla & H). unfold withImageData, bindM. rewrite Hr. exists s'. repeat split; try apply Hla; apply H.
Qed.

Lemma fresh_weaken s run (P Q : buf Z -> Prop) : (forall b, P b -> Q b) -> returns_fresh s run P -> returns_fresh s run Q.
Proof.
  intros HPQ (p & s' & Hr & Hla & H). exists p, s'. split; [exact Hr|]. split; [exact Hla|]. destruct p; [exact H|].
  destruct H as (Hf & (b & Hb & HP) & Ho). split; [exact Hf|]. split; [eauto|exact Ho].
Qed.

Lemma fresh_calls f w h s p b (P : buf Z -> Prop) : wf s -> holds s p b -> returns_fresh s (f w h p s) P ->
  returns_fresh s (f w h p s) (fun b' => P b' /\ calls f w h b b').
Proof.
  intros Hw Hh (q & s' & Hr & Hla & H). exists q, s'. split; [exact Hr|]. split; [exact Hla|]. destruct q; [exact H|].
  destruct H as (Hf & (b' & Hb & HP) & Ho). split; [exact Hf|]. split; [|exact Ho]. exists b'. split; [exact Hb|]. split; [exact HP|].
  exists s, p, id, s'. repeat split; auto. exists id. auto.
Qed.

Definition dims4 w h : Prop := dims_ok w h /\ w * h < 1073741824.

Lemma turning_fresh F f w h s v b : In (F, f) turning -> wf s -> dims_ok w h -> holds s (v_ptr v) b -> image (w * h * 4) b ->
  F w h v = withImageData v (fun p => f w h p) (mul3 w h 4) /\ returns_fresh s (f w h (v_ptr v) s) (exact_image (w * h * 4)).
Proof.
  intros HI Hw Hd Hh Hi. cbn in HI.
  repeat (destruct HI as [E|HI]; [injection E as <- <-; split; [reflexivity|]|]); try contradiction.
  - eapply fresh_weaken; [|apply C01_flip_x; eauto]. intros ? [? _]; auto.
  - eapply fresh_weaken; [|apply C02_flip_y; eauto]. intros ? [? _]; auto.
  - eapply fresh_weaken; [|apply C03_transpose; eauto]. intros ? [? _]. now rewrite (Z.mul_comm w h).
  - eapply fresh_weaken; [|apply C03_transverse; eauto]. intros ? [? _]. now rewrite (Z.mul_comm w h).
  - eapply fresh_weaken; [|apply C04_rotate_90; eauto]. intros ? [? _]. now rewrite (Z.mul_comm w h).
  - eapply fresh_weaken; [|apply C04_rotate_180; eauto]. intros ? [? _]; auto.
  - eapply fresh_weaken; [|apply C04_rotate_270; eauto]. intros ? [? _]. now rewrite (Z.mul_comm w h).
Qed.

Lemma toning_fresh F f w h s v b : In (F, f) toning -> wf s -> dims_ok w h -> w * h < 1073741824 -> holds s (v_ptr v) b -> image (w * h * 4) b ->
  F w h v = withImageData v (fun p => f w h p) (mul3 w h 4) /\ returns_fresh s (f w h (v_ptr v) s) (exact_image (w * h * 4)).
Proof.
  intros HI Hw Hd Hs Hh Hi. cbn in HI. destruct C18_otsu as (T & _ & _ & HT).
  specialize (HT w h s (v_ptr v) b Hw Hd ltac:(lia) Hh Hi). cbv zeta in HT. destruct HT as [HT1 HT2].
  repeat (destruct HI as [E|HI]; [injection E as <- <-; split; [reflexivity|]|]); try contradiction.
  - eapply fresh_weaken; [|apply C11_grayscale; eauto; lia]. intros ? [? _]; auto.
  - eapply fresh_weaken; [|apply C16_grayscale_stretch; eauto; lia]. intros ? [? _]; auto.
  - eapply fresh_weaken; [|exact HT2]. intros ? [? _]; auto.
  - eapply fresh_weaken; [|exact HT1]. intros ? [? _]; auto.
Qed.

Lemma picture_ok F f w h s v b : In (F, f) (turning ++ toning) -> wf s -> dims_ok w h -> w * h < 1073741824 ->
  holds s (v_ptr v) b -> image (w * h * 4) b ->
  hs_returns s (F w h v s) (w * h * 4) (calls f w h b).
Proof.
  intros HI Hw Hd Hs Hh Hi.
  assert (H : F w h v = withImageData v (fun p => f w h p) (mul3 w h 4) /\ returns_fresh s (f w h (v_ptr v) s) (exact_image (w * h * 4))).
  { apply in_app_iff in HI. destruct HI; [eapply turning_fresh|eapply toning_fresh]; eauto. }
  destruct H as [-> H]. destruct Hd as (? & ? & ? & ? & ?). apply with_ok; [|nia|apply mul3_id; nia].
  apply (fresh_calls f); auto.
Qed.

Lemma picture_throws F f w h s v : In (F, f) (turning ++ toning) -> wf s -> is_u32 w -> is_u32 h -> w = 0 \/ h = 0 ->
  hs_throws s (F w h v s).
Proof.
  intros HI Hw Hd Hs Hh. cbn in HI. destruct (C18_otsu_rejects w h s (v_ptr v) true Hw ltac:(tauto)) as (s1 & H1).
  destruct (C18_otsu_rejects w h s (v_ptr v) false Hw ltac:(tauto)) as (s2 & H2).
  repeat (destruct HI as [E|HI]; [injection E as <- <-|]); try contradiction; apply with_throws.
  - apply C01_flip_x_rejects; tauto.
  - apply C02_flip_y_rejects; tauto.
  - apply C03_transpose_rejects; tauto.
  - apply C03_transverse_rejects; tauto.
  - apply C04_rotate_90_rejects; tauto.
  - apply C04_rotate_180_rejects; tauto.
  - apply C04_rotate_270_rejects; tauto.
  - apply C11_grayscale_rejects; tauto.
  - apply C16_stretch_rejects; tauto.
  - apply C18_otsu_rejects; tauto.
  - apply C18_otsu_rejects; tauto.
Qed.

(** Pictures of 4 GiB and more *)
Lemma large_wrong F f w h s v b : In (F, f) turning -> wf s -> dims_ok w h -> 1073741824 <= w * h ->
  holds s (v_ptr v) b -> image (w * h * 4) b ->
  exists r s', F w h v s = Ok (r, s') /\
    match r with None => same_mem s s' /\ alloc_failed s s' | Some v' => v_len v' < w * h * 4 end.
Proof.
  intros HI Hw Hd Hs Hh Hi. destruct (turning_fresh F f w h s v b HI Hw Hd Hh Hi) as [-> (p & s' & Hr & Hla & H)].
  unfold withImageData, bindM. rewrite Hr. destruct p as [|i]; cbn [is_null].
  - exists None, s'. split; [reflexivity|exact H].
  - eexists (Some _), s'. split; [reflexivity|]. cbn [makeVector v_len]. unfold u32 at 1.
    pose proof (Z.mod_pos_bound (mul3 w h 4) U32 eq_refl). unfold U32 in *. lia.
Qed.

(** A vector that claims more bytes than its block has *)
Lemma read_from_over b k : forall i, 0 <= i <= blen b -> (forall j, 0 <= j < blen b -> exists v, bget b j = Some v) -> blen b < i + Z.of_nat k ->
  read_from b i k = UB OutOfBounds.
Proof.
  induction k; intros i Hi Hv Hk; [lia|]. cbn [read_from]. unfold load, inb.
  destruct ((0 <=? i) && (i <? blen b)) eqn:E; [|reflexivity].
  destruct (Hv i) as (v & ->); [lia|]. cbn [bind]. rewrite IHk by (auto; lia). reflexivity.
Qed.

Lemma with_over s v f L n (P : buf Z -> Prop) : returns_fresh s (f (v_ptr v) s) P -> (forall b, P b -> exact_image n b) -> 0 <= n < u32 L ->
  hs_unreadable s (withImageData v f L s).
Proof.
  intros (p & s' & Hr & Hla & H) HP HL. unfold withImageData, bindM. rewrite Hr.
  destruct p as [|i]; cbn [is_null].
  - exists None, s'. split; [reflexivity|exact H].
  - eexists (Some _), s'. split; [reflexivity|]. destruct H as (Hf & (b & Hb & HPb) & Ho).
    destruct (HP b HPb) as (Hbl & Hbn & Hbi).
    unfold read_vec, makeVector, get_bytes, get_obj, bindM, lift, ret. cbn [v_ptr v_len]. rewrite Hb. rewrite (read_from_over b); auto; [lia| |lia].
    intros j Hj. destruct (Hbi j) as (x & Hx & _); [lia|eauto].
Qed.

Lemma sized_ok s (run : res (ptr * Z * Z * st)) P (len : Z -> Z -> Z) n :
  Spec_Trim.returns_sized s run P ->
  (forall w h b, P w h b -> 0 <= n w h /\ len w h = n w h /\ exact_image (n w h) b) ->
  hs_returns_sized s (match run with Ok (outPtr, outW, outH, s') =>
     if is_null outPtr then Ok (None, s') else Ok (Some (outW, outH, makeVector outPtr (len outW outH)), s')
     | UB u => UB u | Hang => Hang | Abort => Abort end) n P.
Proof.
  intros (p & w' & h' & s' & -> & Hla & H) HP. destruct p as [|i]; cbn [is_null].
  - exists None, s'. auto.
  - eexists (Some (_, _, _)), s'. split; [reflexivity|]. split; [exact Hla|].
    destruct H as (Hf & (b & Hb & HPb) & Ho). destruct (HP _ _ _ HPb) as (Hn & -> & He). eapply new_vec_intro; eauto.
Qed.
