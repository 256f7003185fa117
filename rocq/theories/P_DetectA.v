(** * P_DetectA: the loops of the corner detection *)
From Coq Require Import Sorting.Permutation.
From Verif Require Import Base BaseLemmas F Heap Spec HeapLemmas Spec_Morph Spec_Draw Spec_Watershed Spec_Corners
  P_Color P_Over M_Detect.
Local Open Scope Z_scope.

(** ** Removing the border *)
Lemma unborder_ok ow oh wide seg : 0 < ow <= 256 -> 0 < oh <= 256 ->
  exact_image ((ow + 2) * (oh + 2) * 4) wide -> blen seg = ow * oh * 4 ->
  exists seg', unborder ow (ow + 2) (oh + 2) wide seg = Ok seg' /\ exact_image (ow * oh * 4) seg' /\
    forall x y c, inside ow oh x y -> 0 <= c < 4 -> pix seg' ow 4 x y c = pix wide (ow + 2) 4 (x + 1) (y + 1) c.
Proof.
  intros Hw Hh [Lw [_ Iw]] Ls. unfold unborder. rewrite u32_small by lia.
  destruct (for_inv (fun y b => blen b = ow * oh * 4 /\
      forall j, 0 <= j < (y - 1) * ow * 4 ->
        bget b j = bget wide ((j / (ow * 4) + 1) * ((ow + 2) * 4) + 4 + j mod (ow * 4)))
    1 (oh + 2 - 1) (fun y seg => bcopy seg (u32 (u32 (u32 (y - 1) * ow) * 4)) wide (u32 (u32 (u32 (y * (ow + 2)) + 1) * 4))
      (u32 (ow * 4))) seg) as (b & E & Lb & Gb).
  - lia.
  - split; [auto|]. intros j Hj. lia.
  - intros y b Hy [Lb Gb].
    assert (A1 : u32 (u32 (u32 (y - 1) * ow) * 4) = (y - 1) * ow * 4).
    { rewrite (u32_small (y - 1)) by lia. rewrite (u32_small ((y - 1) * ow)) by nia. apply u32_small. nia. }
    assert (A2 : u32 (u32 (u32 (y * (ow + 2)) + 1) * 4) = (y * (ow + 2) + 1) * 4).
    { rewrite (u32_small (y * (ow + 2))) by nia. rewrite (u32_small (y * (ow + 2) + 1)) by nia. apply u32_small. nia. }
    rewrite A1, A2, (u32_small (ow * 4)) by lia.
    destruct (bcopy_ok b ((y - 1) * ow * 4) wide ((y * (ow + 2) + 1) * 4) (ow * 4)) as (b' & E & Lb' & Gb').
    + nia.
    + nia.
    + lia.
    + rewrite Lb. nia.
    + rewrite Lw. nia.
    + exists b'. split; [exact E|]. split; [lia|]. intros j Hj. rewrite Gb'.
      destruct ((((y - 1) * ow * 4) <=? j) && (j <? (y - 1) * ow * 4 + ow * 4)) eqn:C.
      * assert (Q : j / (ow * 4) = y - 1) by (symmetry; apply (Z.div_unique j (ow * 4) (y - 1) (j - (y - 1) * ow * 4)); [lia|ring]).
        rewrite Q. assert (R : j mod (ow * 4) = j - (y - 1) * (ow * 4)) by (rewrite Z.mod_eq by lia; rewrite Q; ring).
        rewrite R. f_equal. ring.
      * apply Gb. lia.
  - exists b. split; [exact E|].
    assert (P : forall x y c, inside ow oh x y -> 0 <= c < 4 -> pix b ow 4 x y c = pix wide (ow + 2) 4 (x + 1) (y + 1) c).
    { intros x y c [Hx Hy] Hc. unfold pix. rewrite Gb by nia.
      assert (Q : ((y * ow + x) * 4 + c) / (ow * 4) = y)
        by (symmetry; apply (Z.div_unique _ (ow * 4) y (x * 4 + c)); [lia|ring]).
      rewrite Q. rewrite Z.mod_eq by lia. rewrite Q. f_equal. ring. }
    split; [|exact P]. split; [exact Lb|]. split; [lia|]. intros i Hi.
    destruct (px_decomp ow oh 4 i) as (x & y & c & Hx & Hy & Hc & ->); [lia|lia|lia|].
    specialize (P x y c (conj Hx Hy) Hc). unfold pix in P. rewrite P. apply Iw. nia.
Qed.

(** ** Copying one channel *)
Lemma copy_w_ok n resp wb : 0 <= n -> n * 2 < 4294967296 -> image (n * 2) resp -> blen wb = n ->
  exists wb', copy_w n resp wb = Ok wb'.
Proof.
  intros H0 Hn I Lw. unfold copy_w. rewrite for_u32_small by lia.
  destruct (for_inv (fun _ (b : buf Z) => blen b = n) 0 n
    (fun i w_channel => v <- load resp (u32 (i * 2)) ;; store w_channel i v) wb) as (b & E & _); eauto.
  intros i b Hi Lb. rewrite u32_small by lia. rewrite (image_load _ _ _ I) by lia. cbn [bind].
  rewrite store_ok by lia. eexists. split; [reflexivity|]. exact Lb.
Qed.

(** ** Counting colours *)
Definition colour_key (b : buf Z) (k : Z) : Z := Z.lor (Z.lor (Z.shiftl (val b (k * 4)) 16) (Z.shiftl (val b (k * 4 + 1)) 8)) (val b (k * 4 + 2)).

Lemma image_byte n b j : image n b -> 0 <= j < n -> byte (val b j).
Proof. intros [_ H] Hj. destruct (H j Hj) as (v & E & B). unfold val. now rewrite E. Qed.

Lemma lor_bound a b n : 0 <= n -> 0 <= a < 2 ^ n -> 0 <= b < 2 ^ n -> 0 <= Z.lor a b < 2 ^ n.
Proof.
  intros Hn Ha Hb. split; [apply Z.lor_nonneg; lia|].
  destruct (Z.eq_dec (Z.lor a b) 0) as [->|N]; [lia|].
  assert (0 <= Z.lor a b) by (apply Z.lor_nonneg; lia).
  apply Z.log2_lt_pow2; [lia|]. rewrite Z.log2_lor by lia.
  destruct (Z.eq_dec n 0) as [->|]; [change (2 ^ 0) with 1 in *; assert (a = 0) by lia; assert (b = 0) by lia; subst; cbn in N; lia|].
  apply Z.max_lub_lt.
  - destruct (Z.eq_dec a 0) as [->|]; [cbn; lia|apply Z.log2_lt_pow2; lia].
  - destruct (Z.eq_dec b 0) as [->|]; [cbn; lia|apply Z.log2_lt_pow2; lia].
Qed.

Lemma colour_key_range n b k : image (n * 4) b -> 0 <= k < n -> 0 <= colour_key b k < 16777216.
Proof.
  intros I Hk. pose proof (image_byte _ _ (k * 4) I ltac:(lia)) as B0.
  pose proof (image_byte _ _ (k * 4 + 1) I ltac:(lia)) as B1. pose proof (image_byte _ _ (k * 4 + 2) I ltac:(lia)) as B2.
  unfold byte in *. unfold colour_key. change 16777216 with (2 ^ 24). rewrite !Z.shiftl_mul_pow2 by lia.
  apply lor_bound; [lia| |change (2 ^ 24) with 16777216; lia].
  apply lor_bound; [lia| |]; change (2 ^ 24) with 16777216; change (2 ^ 16) with 65536; change (2 ^ 8) with 256; lia.
Qed.

(** [K] lists, without repetition, the colours of the opaque pixels before [k]. *)
Definition colours_upto (b : buf Z) (k : Z) (K : list Z) : Prop :=
  NoDup K /\ forall c, In c K <-> exists i, 0 <= i < k /\ val b (i * 4 + 3) <> 0 /\ colour_key b i = c.

Lemma colours_len b k K : 0 <= k -> colours_upto b k K -> Z.of_nat (length K) <= k.
Proof.
  intros Hk [N H].
  assert (I : incl K (map (colour_key b) (map Z.of_nat (seq 0 (Z.to_nat k))))).
  { intros c Hc. apply H in Hc. destruct Hc as (i & Hi & _ & <-). apply in_map. apply in_map_iff.
    exists (Z.to_nat i). split; [lia|]. apply in_seq. lia. }
  apply NoDup_incl_length in I; auto. rewrite !map_length, seq_length in I. lia.
Qed.

Lemma count_loop_ok n b cm : 0 <= n -> n * 4 <= INT_MAX -> image (n * 4) b ->
  blen cm = 16777216 -> (forall i, 0 <= i < 16777216 -> bget cm i = Some 0) ->
  exists cm' K, count_loop n b cm = Ok (cm', Z.of_nat (length K)) /\ colours_upto b n K.
Proof.
  intros H0 Hn I Lc Z0. unfold count_loop. unfold INT_MAX in Hn.
  match goal with |- context [for_ 0 n ?f ?i] =>
    destruct (for_inv (fun k (st : buf Z * Z) => exists K, colours_upto b k K /\ snd st = Z.of_nat (length K) /\
      blen (fst st) = 16777216 /\ forall c, 0 <= c < 16777216 -> exists v, bget (fst st) c = Some v /\ 0 <= v <= k /\ (v <> 0 <-> In c K))
      0 n f i) as ([cm' cc] & E & K & HK & EK & _) end.
  - auto.
  - exists []. split; [split; [constructor|]|]. { intros c. split; [intros []|intros (i & Hi & _); lia]. }
    split; [reflexivity|]. split; [exact Lc|]. intros c Hc. exists 0. cbn [fst]. rewrite Z0 by auto.
    split; [auto|]. split; [lia|]. split; [congruence|intros []].
  - intros k [m cc] Hk (K & [N HK] & EK & Lm & Gm). cbn [fst snd] in *.
    rewrite (image_load _ _ _ I) by lia. cbn [bind]. rewrite (image_load _ _ _ I) by lia. cbn [bind].
    rewrite (image_load _ _ _ I) by lia. cbn [bind]. rewrite (image_load _ _ _ I) by lia. cbn [bind].
    destruct (Z.eqb_spec (val b (k * 4 + 3)) 0) as [Ea|Na].
    + eexists. split; [reflexivity|]. cbn [fst snd]. exists K. split; [split; [auto|]|].
      * intros c. rewrite HK. split; intros (i & Hi & Hr); [exists i; split; [lia|auto]|].
        destruct (Z.eq_dec i k) as [->|]; [tauto|]. exists i. split; [lia|auto].
      * split; [auto|]. split; [auto|]. intros c Hc. destruct (Gm c Hc) as (v & G & Hv & Hi). exists v. split; [auto|]. split; [lia|auto].
    + fold (colour_key b k). pose proof (colour_key_range n b k I Hk) as Hr. cbv zeta.
      destruct (Gm _ Hr) as (v & G & Hv & Hi). rewrite (load_ok m _ v) by (auto; lia). cbn [bind].
      pose proof (colours_len b k K ltac:(lia) (conj N HK)) as HL.
      assert (Next : forall c (P : Prop), (P <-> In c K \/ c = colour_key b k) ->
        (P <-> exists i, 0 <= i < k + 1 /\ val b (i * 4 + 3) <> 0 /\ colour_key b i = c)).
      { intros c P ->. rewrite HK. split.
        - intros [(i & Hi' & R)| ->]; [exists i; split; [lia|auto]|exists k; split; [lia|auto]].
        - intros (i & Hi' & R1 & R2). destruct (Z.eq_dec i k) as [->|]; [right; auto|left; exists i; split; [lia|auto]]. }
      destruct (Z.eqb_spec v 0) as [->|Nv].
      * rewrite ck32_ok by (unfold INT_MIN, INT_MAX; lia). cbn [bind].
        rewrite ck32_ok by (unfold INT_MIN, INT_MAX; lia). cbn [bind]. rewrite store_ok by lia. cbn [bind].
        eexists. split; [reflexivity|]. cbn [fst snd]. exists (colour_key b k :: K). split; [split|].
        -- constructor; [tauto|auto].
        -- intros c. apply Next. cbn [In]. intuition congruence.
        -- split; [cbn [length]; lia|]. split; [auto|]. intros c Hc. rewrite bget_bset.
           destruct (Z.eqb_spec c (colour_key b k)) as [->|Nc].
           ++ eexists. split; [reflexivity|]. split; [lia|]. cbn [In]. split; [auto|lia].
           ++ destruct (Gm c Hc) as (u & Gu & Hu & Hiu). exists u. split; [auto|]. split; [lia|]. cbn [In]. rewrite Hiu. intuition congruence.
      * cbn [bind]. rewrite ck32_ok by (unfold INT_MIN, INT_MAX; lia). cbn [bind]. rewrite store_ok by lia. cbn [bind].
        assert (InK : In (colour_key b k) K) by tauto.
        eexists. split; [reflexivity|]. cbn [fst snd]. exists K. split; [split; [auto|]|].
        -- intros c. apply Next. intuition congruence.
        -- split; [auto|]. split; [auto|]. intros c Hc. rewrite bget_bset.
           destruct (Z.eqb_spec c (colour_key b k)) as [->|Nc].
           ++ eexists. split; [reflexivity|]. split; [lia|]. intuition lia.
           ++ destruct (Gm c Hc) as (u & Gu & Hu & Hiu). exists u. split; [auto|]. split; [lia|auto].
  - exists cm', K. split; [|exact HK]. rewrite E. cbn [snd] in EK. now rewrite EK.
Qed.

Lemma count_colors_ok s L s1 i b w h : over s L s1 -> (forall n, orc s n = true) -> In (i, OBytes b) L ->
  0 < w -> 0 < h -> w * h * 4 <= INT_MAX -> image (w * h * 4) b ->
  exists s2 K, count_colors (Ptr i) w h s1 = Ok (Z.of_nat (length K), s2) /\ over s L s2 /\ colours_upto b (w * h) K.
Proof.
  intros O A Hi Hw Hh Hs I. unfold INT_MAX in Hs. unfold count_colors. cbn [is_null orb].
  replace ((w <=? 0) || (h <=? 0)) with false by (symmetry; apply orb_false_iff; lia).
  destruct (over_alloc s L s1 (OInts (bconst (256 * 256 * 256) 0)) O A) as (j & s2 & E & O2).
  erewrite bindM_Ok by exact E. cbn [is_null].
  erewrite bindM_lift by (apply ck32_ok; unfold INT_MIN, INT_MAX; nia).
  erewrite bindM_lift by (apply ck32_ok; unfold INT_MIN, INT_MAX; nia).
  erewrite bindM_Ok by (eapply get_bytes_ok; eapply over_at; [exact O2|right; exact Hi]).
  erewrite bindM_Ok by (unfold get_ints, bindM, get_obj; rewrite (over_at _ _ _ j _ O2 (or_introl eq_refl)); reflexivity).
  destruct (count_loop_ok (w * h) b (bconst (256 * 256 * 256) 0)) as (cm & K & EK & HK); auto; [nia|].
  erewrite bindM_lift by exact EK. cbn [fst snd].
  destruct (over_put _ _ _ (OInts cm) _ _ O2) as (s3 & E3 & O3). erewrite bindM_Ok by exact E3.
  destruct (over_free _ _ _ _ _ O3) as (s4 & E4 & O4). erewrite bindM_Ok by exact E4.
  exists s4, K. split; [reflexivity|]. auto.
Qed.

(** A picture in the two colours of the regions *)
Lemma val_pixv b w ch x y c : val b ((y * w + x) * ch + c) = pixv b w ch x y c.
Proof. reflexivity. Qed.

Lemma two_coloured w h b (A : Z -> Z -> bool) K : 0 < w -> 0 < h ->
  (forall x y, inside w h x y -> (pixv b w 4 x y 0, pixv b w 4 x y 1, pixv b w 4 x y 2) = (if A x y then (255, 0, 0) else (0, 255, 0))) ->
  (forall x y, inside w h x y -> pixv b w 4 x y 3 = 255) ->
  colours_upto b (w * h) K ->
  (exists x y, inside w h x y /\ A x y = true) -> (exists x y, inside w h x y /\ A x y = false) -> length K = 2%nat.
Proof.
  intros Hw Hh C T [N HK] (x0 & y0 & I0 & A0) (x1 & y1 & I1 & A1).
  assert (Key : forall x y, inside w h x y -> colour_key b (y * w + x) = if A x y then 16711680 else 65280).
  { intros x y Hxy. specialize (C x y Hxy). unfold colour_key.
    replace ((y * w + x) * 4) with ((y * w + x) * 4 + 0) at 1 by lia. rewrite !val_pixv.
    destruct (A x y); injection C as -> -> ->; reflexivity. }
  assert (In0 : In 16711680 K).
  { apply HK. exists (y0 * w + x0). destruct I0 as [Hx Hy]. split; [apply rm_bound; auto|].
    rewrite val_pixv, T by (split; auto). split; [lia|]. rewrite Key by (split; auto). now rewrite A0. }
  assert (In1 : In 65280 K).
  { apply HK. exists (y1 * w + x1). destruct I1 as [Hx Hy]. split; [apply rm_bound; auto|].
    rewrite val_pixv, T by (split; auto). split; [lia|]. rewrite Key by (split; auto). now rewrite A1. }
  assert (Sub : incl K [16711680; 65280]).
  { intros c Hc. apply HK in Hc. destruct Hc as (i & Hi & _ & <-).
    destruct (rm_decomp w h i Hw Hi) as (Hx & Hy & Ei). rewrite Ei. set (x := i mod w) in *. set (y := i / w) in *. clearbody x y. rewrite Key by (split; auto). destruct (A x y); cbn; auto. }
  assert (Sup : incl [16711680; 65280] K) by (intros c [<-|[<-|[]]]; auto).
  apply NoDup_incl_length in Sub; auto. apply NoDup_incl_length in Sup; [|repeat constructor; cbn; intuition lia].
  cbn [length] in *. lia.
Qed.

Lemma one_coloured w h b K : 0 < w -> 0 < h ->
  (forall x y, inside w h x y -> (pixv b w 4 x y 0, pixv b w 4 x y 1, pixv b w 4 x y 2) = (255, 0, 0)) ->
  colours_upto b (w * h) K -> (length K <= 1)%nat.
Proof.
  intros Hw Hh C [N HK]. assert (Sub : incl K [16711680]).
  { intros c Hc. apply HK in Hc. destruct Hc as (i & Hi & _ & <-).
    destruct (rm_decomp w h i Hw Hi) as (Hx & Hy & Ei). rewrite Ei. set (x := i mod w) in *. set (y := i / w) in *. clearbody x y. specialize (C x y (conj Hx Hy)). unfold colour_key.
    replace ((y * w + x) * 4) with ((y * w + x) * 4 + 0) at 1 by lia. rewrite !val_pixv. injection C as -> -> ->. cbn. auto. }
  apply NoDup_incl_length in Sub; auto.
Qed.
