(** * Proofs about [crop] *)
From Verif Require Import Base BaseLemmas F Heap HeapLemmas Spec M_Geom P_Geom.

Lemma mul_le a b c d : 0 <= a <= c -> 0 <= b <= d -> 0 <= a * b <= c * d.
Proof. intros; split; [apply Z.mul_nonneg_nonneg; lia|apply Z.mul_le_mono_nonneg; lia]. Qed.

Lemma crop_loop_ok w h ch x y cw chh src :
  is_u32 w -> is_u32 h -> 0 < ch -> is_u32 ch -> 0 < cw -> 0 < chh -> 0 <= x -> 0 <= y ->
  x + cw <= w -> y + chh <= h -> w * h * ch <= SIZE_MAX -> image (w * h * ch) src ->
  exists b, crop_loop w ch x y cw chh src (bnew (cw * chh * ch)) = Ok b /\ blen b = cw * chh * ch /\
    forall px py c, 0 <= px < cw -> 0 <= py < chh -> 0 <= c < ch ->
      pix b cw ch px py c = pix src w ch (x + px) (y + py) c.
Proof.
  unfold is_u32, SIZE_MAX; intros Hw Hh Hc0 Hc Hcw Hchh Hx Hy Hxw Hyh HS [Hi1 Hi2].
  unfold crop_loop.
  assert (B0 : 0 <= w * 1 <= w * h) by (apply mul_le; lia).
  assert (B1 : 0 <= cw * ch <= w * ch) by (apply mul_le; lia).
  assert (B2 : 0 <= w * ch <= w * h * ch) by (apply mul_le; lia).
  assert (A4 : 0 <= cw * chh * ch <= w * h * ch) by (apply mul_le; [apply mul_le|]; lia).
  rewrite (u64_small (cw * ch)) by lia.
  destruct (for_inv (fun i b => blen b = cw * chh * ch /\
      forall px py c, 0 <= px < cw -> 0 <= py < i -> 0 <= c < ch ->
      pix b cw ch px py c = pix src w ch (x + px) (y + py) c) 0 chh
     (fun i dst => bcopy dst (u64 (i * (cw * ch))) src (u64 (u64 (u64 (u32 (y + i) * w) + x) * ch)) (cw * ch))
     (bnew (cw * chh * ch))) as [b [E [L H]]].
  - lia.
  - split; [reflexivity|]. intros; lia.
  - intros i b Hi [L H].
    rewrite (u32_small (y + i)) by lia.
    assert (A0 : 0 <= (y + i + 1) * w <= h * w) by (apply mul_le; lia).
    assert (A0' : 0 <= (y + i) * w) by (apply Z.mul_nonneg_nonneg; lia).
    assert (A1 : 0 <= (y + i) * w + x /\ (y + i) * w + x + cw <= w * h) by lia.
    assert (A2 : 0 <= ((y + i) * w + x + cw) * ch <= w * h * ch) by (apply mul_le; lia).
    assert (A2' : 0 <= ((y + i) * w + x) * ch) by (apply Z.mul_nonneg_nonneg; lia).
    assert (A2'' : 0 <= w * h * 1 <= w * h * ch) by (apply mul_le; lia).
    rewrite (u64_small ((y + i) * w)) by lia.
    rewrite (u64_small ((y + i) * w + x)) by lia.
    rewrite (u64_small (((y + i) * w + x) * ch)) by lia.
    assert (A3 : 0 <= (i + 1) * (cw * ch) <= chh * (cw * ch)) by (apply mul_le; lia).
    assert (A3' : 0 <= i * (cw * ch)) by (apply Z.mul_nonneg_nonneg; lia).
    rewrite (u64_small (i * (cw * ch))) by lia.
    destruct (bcopy_ok b (i * (cw * ch)) src (((y + i) * w + x) * ch) (cw * ch)) as [b' [E' [L' G]]]; try lia.
    exists b'; split; auto. split; [congruence|].
    intros px py c Hpx Hpy Hcc. unfold pix. rewrite G.
    assert (Q0 : 0 <= (px + 1) * ch <= cw * ch) by (apply mul_le; lia).
    assert (Q : 0 <= px * ch) by (apply Z.mul_nonneg_nonneg; lia).
    destruct (Z.eq_dec py i) as [->|Hne].
    + replace ((i * (cw * ch) <=? (i * cw + px) * ch + c) && ((i * cw + px) * ch + c <? i * (cw * ch) + cw * ch))
        with true by lia.
      f_equal. ring.
    + replace ((i * (cw * ch) <=? (py * cw + px) * ch + c) && ((py * cw + px) * ch + c <? i * (cw * ch) + cw * ch))
        with false.
      * apply H; auto; lia.
      * symmetry. apply andb_false_iff. left. apply Z.leb_gt.
        assert (0 <= (py + 1) * (cw * ch) <= i * (cw * ch)) by (apply mul_le; lia). lia.
  - exists b; split; [exact E|]. split; auto.
Qed.

Lemma crop_ok w h ch p x y cw chh s b :
  wf s -> is_u32 w -> is_u32 h -> is_u32 ch -> 0 < ch -> w * h * ch <= SIZE_MAX ->
  holds s p b -> image (w * h * ch) b ->
  0 <= x -> 0 <= y -> 0 < cw -> 0 < chh -> x + cw <= w -> y + chh <= h ->
  returns_fresh s (crop w h ch p x y cw chh s)
    (fun b' => exact_image (cw * chh * ch) b' /\
       forall px py c, 0 <= px < cw -> 0 <= py < chh -> 0 <= c < ch ->
         pix b' cw ch px py c = pix b w ch (x + px) (y + py) c).
Proof.
  intros Hwf Hw Hh Hc Hc0 HS [d [-> Hd]] Him Hx Hy Hcw Hchh Hxw Hyh.
  destruct (crop_loop_ok w h ch x y cw chh b) as [b' [E [L G]]]; auto.
  unfold is_u32, SIZE_MAX in *. unfold crop. simpl is_null. cbv iota.
  replace (w =? 0) with false by lia. replace (h =? 0) with false by lia.
  replace (ch =? 0) with false by lia. replace (cw =? 0) with false by lia.
  replace (chh =? 0) with false by lia. simpl orb. cbv iota.
  rewrite !u32_small by lia.
  replace (4294967295 - cw <? x) with false by lia. replace (4294967295 - chh <? y) with false by lia.
  replace (w <? x + cw) with false by lia. replace (h <? y + chh) with false by lia. simpl orb. cbv iota.
  assert (A4 : 0 <= cw * chh * ch <= w * h * ch) by (apply mul_le; [apply mul_le|]; lia).
  assert (A5' : 0 <= cw * chh) by (apply Z.mul_nonneg_nonneg; lia).
  assert (A5 : 0 <= cw * chh * 1 <= cw * chh * ch) by (apply mul_le; lia).
  assert (SIZE_MAX / chh <? cw = false) as ->.
  { unfold SIZE_MAX. apply Z.ltb_ge. apply Z.div_le_lower_bound; nia. }
  rewrite (u64_small (cw * chh)) by lia.
  assert (SIZE_MAX / ch <? cw * chh = false) as ->.
  { unfold SIZE_MAX. apply Z.ltb_ge. apply Z.div_le_lower_bound; lia. }
  rewrite (u64_small (cw * chh * ch)) by lia.
  eapply returns_fresh_1; eauto. cbv beta.
  split; [|exact G]. split; [exact L|]. split; [lia|].
  intros i Hi. destruct (px_decomp cw chh ch i) as (px & py & c & Hpx & Hpy & Hcc & ->); auto.
  specialize (G px py c Hpx Hpy Hcc). unfold pix in G. rewrite G.
  apply Him.
  assert (R0 : 0 <= (y + py) * w + (x + px) < w * h) by (apply rm_bound; lia).
  assert (0 <= ((y + py) * w + (x + px) + 1) * ch <= w * h * ch) by (apply mul_le; lia).
  assert (0 <= ((y + py) * w + (x + px)) * ch) by (apply Z.mul_nonneg_nonneg; lia). lia.
Qed.

(** Every rectangle that is empty or not inside the image is rejected. *)
Lemma crop_rejects w h ch p x y cw chh s :
  wf s -> is_u32 w -> is_u32 h -> is_u32 ch -> is_u32 x -> is_u32 y -> is_u32 cw -> is_u32 chh ->
  p = Null \/ w = 0 \/ h = 0 \/ ch = 0 \/ cw = 0 \/ chh = 0 \/ x + cw > w \/ y + chh > h ->
  returns_null s (crop w h ch p x y cw chh s).
Proof.
  unfold is_u32; intros Hwf Hw Hh Hc Hx Hy Hcw Hchh Hbad.
  assert (R : returns_null s (ret Null s)).
  { exists s; split; [reflexivity|]. split; [apply later_refl; auto|apply same_mem_refl]. }
  unfold crop. destruct (is_null p) eqn:Ep; [exact R|].
  assert (p <> Null) by (destruct p; [discriminate|congruence]).
  destruct ((w =? 0) || (h =? 0) || (ch =? 0) || (cw =? 0) || (chh =? 0)) eqn:E0; [exact R|].
  rewrite (u32_small (4294967295 - cw)) by lia. rewrite (u32_small (4294967295 - chh)) by lia.
  destruct ((4294967295 - cw <? x) || (4294967295 - chh <? y)) eqn:E1; [exact R|].
  rewrite !u32_small by lia.
  assert (x + cw > w \/ y + chh > h) by (destruct Hbad as [|[|[|[|[|[|[|]]]]]]]; try lia; congruence).
  clear Hbad. replace ((w <? x + cw) || (h <? y + chh)) with true by lia. exact R.
Qed.

(** Successful crops, and how they compose. *)
Definition crop_calls (w h ch x y cw chh : Z) (b b' : buf Z) : Prop :=
  calls (fun w h p => crop w h ch p x y cw chh) w h b b'.

Lemma crop_calls_inv w h ch x y cw chh b b' :
  is_u32 w -> is_u32 h -> is_u32 ch -> is_u32 x -> is_u32 y -> is_u32 cw -> is_u32 chh ->
  w * h * ch <= SIZE_MAX -> image (w * h * ch) b ->
  crop_calls w h ch x y cw chh b b' ->
  0 < ch /\ 0 < cw /\ 0 < chh /\ x + cw <= w /\ y + chh <= h /\
  exact_image (cw * chh * ch) b' /\
  forall px py c, 0 <= px < cw -> 0 <= py < chh -> 0 <= c < ch ->
         pix b' cw ch px py c = pix b w ch (x + px) (y + py) c.
Proof.
  intros Hw Hh Hc Hx Hy Hcw Hchh HS Him HC.
  assert (B : ~ (w = 0 \/ h = 0 \/ ch = 0 \/ cw = 0 \/ chh = 0 \/ x + cw > w \/ y + chh > h)).
  { intros Bad. destruct HC as (s & p & q & s' & Hwf & Hp & E & _).
    destruct (crop_rejects w h ch p x y cw chh s) as (s1 & E1 & _); auto; try tauto.
    rewrite E1 in E; discriminate. }
  unfold is_u32 in *.
  repeat (split; [lia|]).
  unfold crop_calls in HC. pattern b'. refine (calls_inv _ _ _ _ _ _ _ HC). intros s p Hwf Hp.
  apply crop_ok; auto; unfold is_u32; try lia.
Qed.

Lemma crop_crop w h ch x y cw chh x' y' cw' chh' b b1 b2 b3 :
  is_u32 w -> is_u32 h -> is_u32 ch -> is_u32 x -> is_u32 y -> is_u32 cw -> is_u32 chh ->
  is_u32 x' -> is_u32 y' -> is_u32 cw' -> is_u32 chh' ->
  w * h * ch <= SIZE_MAX -> image (w * h * ch) b ->
  crop_calls w h ch x y cw chh b b1 -> crop_calls cw chh ch x' y' cw' chh' b1 b2 ->
  crop_calls w h ch (x + x') (y + y') cw' chh' b b3 ->
  blen b2 = blen b3 /\ same_bytes (cw' * chh' * ch) b2 b3.
Proof.
  intros Hw Hh Hc Hx Hy Hcw Hchh Hx' Hy' Hcw' Hchh' HS Him C1 C2 C3.
  apply crop_calls_inv in C1; auto. destruct C1 as (A1 & A2 & A3 & A4 & A5 & X1 & G1).
  assert (0 <= cw * chh * ch <= w * h * ch) by (unfold is_u32 in *; apply mul_le; [apply mul_le|]; lia).
  assert (Hs2 : cw * chh * ch <= SIZE_MAX) by lia.
  apply crop_calls_inv in C2; auto; [|apply X1].
  destruct C2 as (B1 & B2 & B3 & B4 & B5 & X2 & G2).
  assert (is_u32 (x + x')) by (unfold is_u32 in *; lia).
  assert (is_u32 (y + y')) by (unfold is_u32 in *; lia).
  apply crop_calls_inv in C3; auto. destruct C3 as (D1 & D2 & D3 & D4 & D5 & X3 & G3).
  split; [destruct X2, X3; congruence|].
  intros i Hi. destruct (px_decomp cw' chh' ch i) as (px & py & c & Hpx & Hpy & Hcc & ->); auto.
  unfold is_u32 in *.
  specialize (G3 px py c Hpx Hpy Hcc). specialize (G2 px py c Hpx Hpy Hcc).
  rewrite G1 in G2 by lia. unfold pix in *. rewrite G2, G3. f_equal. ring.
Qed.

Lemma crop_full w h ch b b' :
  is_u32 w -> is_u32 h -> is_u32 ch -> w * h * ch <= SIZE_MAX -> image (w * h * ch) b ->
  crop_calls w h ch 0 0 w h b b' -> same_bytes (w * h * ch) b b'.
Proof.
  intros Hw Hh Hc HS Him C.
  apply crop_calls_inv in C; auto; try (unfold is_u32; lia).
  destruct C as (A1 & A2 & A3 & A4 & A5 & X1 & G1).
  intros i Hi. destruct (px_decomp w h ch i) as (px & py & c & Hpx & Hpy & Hcc & ->); auto.
  specialize (G1 px py c Hpx Hpy Hcc). unfold pix in G1. rewrite G1. f_equal; ring.
Qed.
