(** * Proofs about [M_Color.v]: grayscale and channel conversions *)
From Verif Require Import Base BaseLemmas F Heap HeapLemmas Spec M_Color.

Definition val (b : buf Z) (j : Z) : Z := match bget b j with Some v => v | None => 0 end.

Lemma image_val n b j : image n b -> 0 <= j < n -> bget b j = Some (val b j) /\ byte (val b j).
Proof. intros [_ H] Hj. destruct (H j Hj) as [v [E B]]. unfold val. rewrite E. auto. Qed.

Lemma image_load n b j : image n b -> 0 <= j < n -> load b j = Ok (val b j).
Proof.
  intros H Hj. destruct (image_val n b j H Hj) as [E _]. apply load_ok; auto.
  destruct H; lia.
Qed.

Lemma luma_byte r g b : byte r -> byte g -> byte b -> byte (luma r g b).
Proof. unfold byte, luma; intros. split; [apply Z.div_pos; lia|apply Z.div_lt_upper_bound; lia]. Qed.

Lemma gray_of_luma r g b : byte r -> byte g -> byte b -> gray_of r g b = luma r g b.
Proof.
  intros Hr Hg Hb. pose proof (luma_byte r g b Hr Hg Hb) as [L1 L2].
  unfold gray_of, R_WEIGHT, G_WEIGHT, B_WEIGHT. rewrite Z.shiftr_div_pow2 by lia.
  change (2 ^ 8) with 256.
  replace (r * 76 + g * 150 + b * 30) with (76 * r + 150 * g + 30 * b) by ring.
  apply u8_small. unfold luma in *. lia.
Qed.

Lemma luma_between r g b : byte r -> byte g -> byte b ->
  Z.min r (Z.min g b) <= luma r g b <= Z.max r (Z.max g b).
Proof.
  unfold byte, luma; intros. split.
  - apply Z.div_le_lower_bound; lia.
  - assert (76 * r + 150 * g + 30 * b <= 256 * Z.max r (Z.max g b)) by lia.
    apply Z.div_le_upper_bound; lia.
Qed.
Lemma luma_gray v : luma v v v = v.
Proof. unfold luma. replace (76 * v + 150 * v + 30 * v) with (v * 256) by ring. apply Z.div_mul; lia. Qed.

Definition lum (b : buf Z) (i : Z) : Z := luma (val b (i * 4)) (val b (i * 4 + 1)) (val b (i * 4 + 2)).

Lemma lum_byte n b i : image (n * 4) b -> 0 <= i < n -> byte (lum b i).
Proof.
  intros H Hi. unfold lum. apply luma_byte; eapply image_val; eauto; lia.
Qed.

Lemma lum_gray_at b w x y : lum b (y * w + x) = gray_at b w x y.
Proof. unfold lum, gray_at, pixv, pix, val. rewrite !Z.add_0_r. reflexivity. Qed.

Lemma get_gray32_ok n b i : image (n * 4) b -> 0 <= i < n -> n * 4 <= 4294967296 ->
  get_gray32 b (i * 4) = Ok (lum b i).
Proof.
  intros H Hi Hn. unfold get_gray32.
  rewrite (image_load (n * 4)) by (auto; lia). simpl bind.
  rewrite (u32_small (i * 4 + 1)) by lia. rewrite (image_load (n * 4)) by (auto; lia). simpl bind.
  rewrite (u32_small (i * 4 + 2)) by lia. rewrite (image_load (n * 4)) by (auto; lia). simpl bind.
  rewrite gray_of_luma by (eapply image_val; eauto; lia). reflexivity.
Qed.

Lemma put_gray32_ok dst k g : 0 <= k -> k + 4 <= blen dst -> k + 4 <= 4294967296 ->
  exists b, put_gray32 dst k g = Ok b /\ blen b = blen dst /\
    forall j, bget b j = if (k <=? j) && (j <? k + 4) then Some (if j - k =? 3 then 255 else g) else bget dst j.
Proof.
  intros. unfold put_gray32. rewrite !u32_small by lia.
  rewrite store_ok by lia. simpl bind.
  rewrite store_ok by (rewrite ?blen_bset; lia). simpl bind.
  rewrite store_ok by (rewrite ?blen_bset; lia). simpl bind.
  rewrite store_ok by (rewrite ?blen_bset; lia).
  eexists; split; [reflexivity|]. split; [reflexivity|].
  intros j. rewrite !bget_bset.
  destruct (Z.eqb_spec j (k + 3)); [|destruct (Z.eqb_spec j (k + 2)); [|destruct (Z.eqb_spec j (k + 1));
    [|destruct (Z.eqb_spec j k)]]].
  all: destruct ((k <=? j) && (j <? k + 4)) eqn:E; destruct (Z.eqb_spec (j - k) 3); try lia; auto.
Qed.

(** Output predicate in linear form: pixel [i] is the opaque gray [f i]. *)
Definition grays (n : Z) (f : Z -> Z) (b : buf Z) : Prop :=
  blen b = n * 4 /\ forall i c, 0 <= i < n -> 0 <= c < 4 ->
    bget b (i * 4 + c) = Some (if c =? 3 then 255 else f i).

Lemma grays_exact n f b : (forall i, 0 <= i < n -> byte (f i)) -> grays n f b -> exact_image (n * 4) b.
Proof.
  intros Hf [L G]. split; auto. split; [lia|]. intros j Hj.
  pose proof (Z.div_mod j 4). pose proof (Z.mod_pos_bound j 4).
  specialize (G (j / 4) (j mod 4)). replace (j / 4 * 4 + j mod 4) with j in G by lia.
  rewrite G by lia. eexists; split; [reflexivity|].
  destruct (j mod 4 =? 3); [unfold byte; lia|]. apply Hf; lia.
Qed.

Lemma grays_opaque w h f b x y : grays (w * h) f b -> 0 <= x < w -> 0 <= y < h ->
  opaque_gray b w x y (f (y * w + x)).
Proof.
  intros [L G] Hx Hy. pose proof (rm_bound w h x y Hx Hy).
  unfold opaque_gray, pix. repeat split; rewrite G by lia; reflexivity.
Qed.

(** ** fcv_grayscale *)

Lemma grayscale_loop_ok w h src :
  0 < w -> 0 < h -> w * h <= 1073741824 -> image (w * h * 4) src ->
  exists b, grayscale_loop w h src (bnew (w * h * 4)) = Ok b /\ grays (w * h) (lum src) b.
Proof.
  intros Hw Hh Hn Hi. unfold grayscale_loop. rewrite u32_small by nia.
  destruct (loop1d_writes (w * h * 4) 4 (w * h) (fun i => i * 4)
     (fun i c => Some (if c =? 3 then 255 else lum src i))
     (fun i dst => let rgba_index := u32 (i * 4) in
        gray <- get_gray32 src rgba_index ;; put_gray32 dst rgba_index gray)
     (bnew (w * h * 4))) as [b [E [L G]]]; try nia.
  - reflexivity.
  - intros i Hi' b Hb. cbv zeta. rewrite u32_small by lia.
    rewrite (get_gray32_ok (w * h)) by (auto; lia). simpl bind.
    destruct (put_gray32_ok b (i * 4) (lum src i)) as [b' [E' [L' G']]]; try lia.
    exists b'; split; [auto|]. split; [lia|exact G'].
  - exists b; split; auto. split; auto.
Qed.

Lemma luma_shell_ok (w h : Z) d loop s b b' (P : buf Z -> Prop) :
  wf s -> dims_ok w h -> mem s d = Some (OBytes b) ->
  loop b (bnew (w * h * 4)) = Ok b' -> P b' ->
  returns_fresh s
   ((if is_null (Ptr d) || (w =? 0) || (h =? 0) then ret Null else
     if SIZE_MAX / h <? w then ret Null else
     let num_pixels := u64 (w * h) in
     if SIZE_MAX / 4 <? num_pixels then ret Null else
     let img_length_byte := u64 (num_pixels * 4) in
     p <-- malloc_bytes img_length_byte ;;
     if is_null p then ret Null else
     src <-- get_bytes (Ptr d) ;;
     dst <-- get_bytes p ;;
     dst' <-- lift (loop src dst) ;;
     _ <-- put_bytes p dst' ;;
     ret p) s) P.
Proof.
  unfold dims_ok, is_u32, SIZE_MAX; intros Hwf (Hw & Hh & Hw0 & Hh0 & HS) Hd Hl HP.
  simpl is_null.
  replace (w =? 0) with false by lia. replace (h =? 0) with false by lia. simpl orb. cbv iota.
  assert (18446744073709551615 / h <? w = false) as ->.
  { apply Z.ltb_ge. apply Z.div_le_lower_bound; nia. }
  cbv zeta.
  assert (u64 (w * h) = w * h) as -> by (apply u64_small; nia).
  replace (18446744073709551615 / 4 <? w * h) with false
    by (change (18446744073709551615 / 4) with 4611686018427387903; lia).
  rewrite u64_small by lia.
  eapply returns_fresh_1; eauto.
Qed.

Lemma grayscale_ok : forall w h s p b,
  wf s -> dims_ok w h -> w * h <= 1073741824 -> holds s p b -> image (w * h * 4) b ->
  returns_fresh s (grayscale w h p s) (fun b' =>
    exact_image (w * h * 4) b' /\
    forall x y, 0 <= x < w -> 0 <= y < h -> opaque_gray b' w x y (gray_at b w x y)).
Proof.
  intros w h s p b Hwf D Hn [d [-> Hd]] Hi.
  destruct (grayscale_loop_ok w h b) as [b' [E G]]; auto; try (unfold dims_ok in D; lia).
  eapply luma_shell_ok; eauto. split.
  - apply grays_exact in G; auto. intros; eapply lum_byte; eauto.
  - intros x y Hx Hy. rewrite <- lum_gray_at. eapply grays_opaque; eauto.
Qed.

Lemma grayscale_rejects : forall w h s p,
  wf s -> is_u32 w -> is_u32 h ->
  p = Null \/ w = 0 \/ h = 0 \/ w * h * 4 > SIZE_MAX ->
  returns_null s (grayscale w h p s).
Proof.
  unfold is_u32, SIZE_MAX; intros w h s data Hwf Hw Hh Hbad.
  pose proof (returns_null_ret s Hwf) as R.
  unfold grayscale.
  destruct (is_null data || (w =? 0) || (h =? 0)) eqn:E; [exact R|].
  destruct (SIZE_MAX / h <? w) eqn:E2; [exact R|].
  assert (data <> Null) by (destruct data; [discriminate|congruence]).
  assert (w * h * 4 > 18446744073709551615) by (destruct Hbad as [|[|[|]]]; try lia; congruence).
  assert (0 <= w * h < 18446744073709551616) by nia.
  rewrite u64_small by lia.
  replace (SIZE_MAX / 4 <? w * h) with true; [exact R|].
  change (SIZE_MAX / 4) with 4611686018427387903. lia.
Qed.

Lemma gray_at_between b w h x y : 0 <= x < w -> 0 <= y < h -> image (w * h * 4) b ->
  Z.min (pixv b w 4 x y 0) (Z.min (pixv b w 4 x y 1) (pixv b w 4 x y 2)) <= gray_at b w x y
  <= Z.max (pixv b w 4 x y 0) (Z.max (pixv b w 4 x y 1) (pixv b w 4 x y 2)).
Proof.
  intros Hx Hy Hi. pose proof (rm_bound w h x y Hx Hy).
  apply luma_between; unfold pixv, pix; eapply image_val; eauto; lia.
Qed.

Lemma opaque_gray_at b w x y g : opaque_gray b w x y g -> gray_at b w x y = g.
Proof. intros (A & B & C & _). unfold gray_at, pixv. rewrite A, B, C. apply luma_gray. Qed.

Lemma calls_inv' f w h b b' (P : buf Z -> Prop) :
  (forall s p, wf s -> holds s p b -> returns_fresh s (f w h p s) P) ->
  calls f w h b b' -> P b'.
Proof.
  intros H (s & p & q & s' & Hwf & Hp & E & (i & Ei & Hq)).
  inversion Ei; subst. destruct (H s p Hwf Hp) as (p' & s1 & E1 & _ & M).
  rewrite E1 in E; inversion E; subst. destruct M as [_ [[b1 [Hb1 HP]] _]]. congruence.
Qed.

Lemma opaque_same w h b b' f : 0 < w -> 0 < h ->
  (forall x y, 0 <= x < w -> 0 <= y < h -> opaque_gray b w x y (f x y)) ->
  (forall x y, 0 <= x < w -> 0 <= y < h -> opaque_gray b' w x y (f x y)) ->
  same_bytes (w * h * 4) b b'.
Proof.
  intros Hw Hh H1 H2 i Hi.
  destruct (px_decomp w h 4 i) as (x & y & c & Hx & Hy & Hc & ->); auto; try lia.
  specialize (H1 x y Hx Hy). specialize (H2 x y Hx Hy).
  unfold opaque_gray, pix in *. destruct H1 as (A & B & C & D), H2 as (A' & B' & C' & D').
  assert (c = 0 \/ c = 1 \/ c = 2 \/ c = 3) as [->|[->|[->| ->]]] by lia; congruence.
Qed.

Lemma grayscale_idem w h b b1 b2 : dims_ok w h -> w * h <= 1073741824 -> image (w * h * 4) b ->
  calls grayscale w h b b1 -> calls grayscale w h b1 b2 -> same_bytes (w * h * 4) b1 b2.
Proof.
  intros D Hn Hi C1 C2.
  assert (H1 := calls_inv' _ _ _ _ _ _ (fun s p Hwf Hp => grayscale_ok w h s p b Hwf D Hn Hp Hi) C1).
  destruct H1 as [X1 G1].
  assert (H2 := calls_inv' _ _ _ _ _ _ (fun s p Hwf Hp => grayscale_ok w h s p b1 Hwf D Hn Hp (proj2 X1)) C2).
  destruct H2 as [X2 G2]. unfold dims_ok in D.
  eapply opaque_same with (f := gray_at b1 w); try lia; auto.
  intros x y Hx Hy. pose proof (opaque_gray_at _ _ _ _ _ (G1 x y Hx Hy)) as Eg. rewrite Eg. auto.
Qed.

(** For 65536x65536 (4 GiPixel) the 32-bit loop bound wraps to 0: every byte of the
    returned picture is uninitialised. *)
Definition st_const (n v : Z) : st :=
  mkst (upd (fun _ => None) 0 (Some (OBytes (bconst n v)))) 1 (fun _ => true) 0.
Lemma wf_st_const n v : wf (st_const n v).
Proof. intros i Hi; simpl in *. rewrite upd_other by lia; auto. Qed.
Lemma image_const n v : byte v -> image n (bconst n v).
Proof. intros Hv; split; [simpl; lia|]. intros; exists v; split; auto. Qed.

Lemma grayscale_wraps : exists w h s p b q s' b',
  wf s /\ dims_ok w h /\ holds s p b /\ image (w * h * 4) b /\
  grayscale w h p s = Ok (Ptr q, s') /\ mem s' q = Some (OBytes b') /\
  forall x y c, pix b' w 4 x y c = None.
Proof.
  exists 65536, 65536, (st_const (65536 * 65536 * 4) 7), (Ptr 0), (bconst (65536 * 65536 * 4) 7).
  destruct (run_split (grayscale 65536 65536 (Ptr 0) (st_const (65536 * 65536 * 4) 7))
     (fun b' => forall x y c, pix b' 65536 4 x y c = None)) as (q & s' & b' & E & Em & HP).
  { vm_compute. reflexivity. }
  exists q, s', b'.
  split; [apply wf_st_const|]. split; [unfold dims_ok, is_u32, SIZE_MAX; lia|].
  split; [exists 0; split; reflexivity|].
  split; [apply image_const; unfold byte; lia|]. auto.
Qed.

(** ** Single-channel conversions *)

Lemma rgba_to_grayscale_loop_ok n src :
  0 <= n -> n * 4 <= 18446744073709551615 -> image (n * 4) src ->
  exists b, rgba_to_grayscale_loop n src (bnew n) = Ok b /\ blen b = n /\
    forall i, 0 <= i < n -> bget b i = Some (lum src i).
Proof.
  intros Hn HS Hi. unfold rgba_to_grayscale_loop.
  destruct (loop1d_writes n 1 n (fun i => i) (fun i c => Some (lum src i))
    (fun i dst =>
      let rgba_index := u64 (i * 4) in
      r <- load src rgba_index ;;
      g <- load src (u64 (rgba_index + 1)) ;;
      b <- load src (u64 (rgba_index + 2)) ;;
      store dst i (gray_of r g b)) (bnew n)) as [b [E [L G]]]; try lia; auto.
  - intros i Hi' b Hb. cbv zeta. rewrite (u64_small (i * 4)) by lia.
    rewrite (u64_small (i * 4 + 1)) by lia. rewrite (u64_small (i * 4 + 2)) by lia.
    rewrite (image_load (n * 4)) by (auto; lia). simpl bind.
    rewrite (image_load (n * 4)) by (auto; lia). simpl bind.
    rewrite (image_load (n * 4)) by (auto; lia). simpl bind.
    rewrite gray_of_luma by (eapply image_val; eauto; lia).
    rewrite store_ok by lia. eexists; split; [reflexivity|]. split; [exact Hb|].
    intros j. rewrite bget_bset.
    destruct (Z.eqb_spec j i); [subst|];
      [replace ((i <=? i) && (i <? i + 1)) with true by lia
      |replace ((i <=? j) && (j <? i + 1)) with false by lia]; reflexivity.
  - exists b; split; auto. split; auto. intros i Hi'. specialize (G i 0 Hi').
    rewrite Z.add_0_r in G. apply G; lia.
Qed.

Lemma rgba_to_grayscale_ok : forall w h s p b,
  wf s -> dims_ok w h -> holds s p b -> image (w * h * 4) b ->
  returns_fresh s (rgba_to_grayscale w h p s) (fun b' =>
    exact_image (w * h) b' /\
    forall x y, 0 <= x < w -> 0 <= y < h -> pix b' w 1 x y 0 = Some (gray_at b w x y)).
Proof.
  intros w h s p b Hwf D [d [-> Hd]] Hi.
  pose proof D as (D1 & D2 & D3 & D4 & D5). unfold is_u32, SIZE_MAX in *.
  destruct (rgba_to_grayscale_loop_ok (w * h) b) as [b' [E [L G]]]; auto; try lia.
  unfold rgba_to_grayscale. simpl is_null.
  replace (w =? 0) with false by lia. replace (h =? 0) with false by lia. simpl orb. cbv iota.
  assert (SIZE_MAX / h <? w = false) as ->.
  { unfold SIZE_MAX; apply Z.ltb_ge. apply Z.div_le_lower_bound; nia. }
  cbv zeta. assert (u64 (w * h) = w * h) as -> by (apply u64_small; nia).
  eapply returns_fresh_1; eauto. cbv beta. split.
  - split; auto. split; [lia|]. intros i Hi'. rewrite G by auto. eexists; split; eauto.
    eapply lum_byte; eauto.
  - intros x y Hx Hy. pose proof (rm_bound w h x y Hx Hy). unfold pix.
    replace ((y * w + x) * 1 + 0) with (y * w + x) by ring. rewrite G by lia.
    now rewrite lum_gray_at.
Qed.

Lemma single_to_multichannel_loop_ok n src :
  0 <= n -> n * 4 <= 18446744073709551615 -> image n src ->
  exists b, single_to_multichannel_loop n src (bnew (n * 4)) = Ok b /\ grays n (val src) b.
Proof.
  intros Hn HS Hi. unfold single_to_multichannel_loop.
  destruct (loop1d_writes (n * 4) 4 n (fun i => i * 4) (fun i c => Some (if c =? 3 then 255 else val src i))
    (fun i dst =>
      let rgba_index := u64 (i * 4) in
      v <- load src i ;;
      dst <- store dst rgba_index v ;;
      dst <- store dst (u64 (rgba_index + 1)) v ;;
      dst <- store dst (u64 (rgba_index + 2)) v ;;
      store dst (u64 (rgba_index + 3)) 255) (bnew (n * 4))) as [b [E [L G]]]; try lia; auto.
  - intros i Hi' b Hb. cbv zeta. rewrite (u64_small (i * 4)) by lia.
    rewrite (u64_small (i * 4 + 1)) by lia. rewrite (u64_small (i * 4 + 2)) by lia.
    rewrite (u64_small (i * 4 + 3)) by lia.
    rewrite (image_load n) by (auto; lia). simpl bind.
    rewrite store_ok by lia. simpl bind.
    rewrite store_ok by (rewrite ?blen_bset; lia). simpl bind.
    rewrite store_ok by (rewrite ?blen_bset; lia). simpl bind.
    rewrite store_ok by (rewrite ?blen_bset; lia).
    eexists; split; [reflexivity|]. split; [rewrite ?blen_bset; lia|].
    intros j. rewrite !bget_bset.
    destruct (Z.eqb_spec j (i * 4 + 3)); [|destruct (Z.eqb_spec j (i * 4 + 2)); [|destruct (Z.eqb_spec j (i * 4 + 1));
    [|destruct (Z.eqb_spec j (i * 4))]]].
    all: destruct ((i * 4 <=? j) && (j <? i * 4 + 4)) eqn:E; destruct (Z.eqb_spec (j - i * 4) 3); try lia; auto.
  - exists b; split; auto. split; auto.
Qed.

Lemma single_to_multichannel_ok : forall w h s p b,
  wf s -> dims_ok w h -> holds s p b -> image (w * h) b ->
  returns_fresh s (single_to_multichannel w h p s) (fun b' =>
    exact_image (w * h * 4) b' /\
    forall x y, 0 <= x < w -> 0 <= y < h -> opaque_gray b' w x y (pixv b w 1 x y 0)).
Proof.
  intros w h s p b Hwf D [d [-> Hd]] Hi.
  pose proof D as (D1 & D2 & D3 & D4 & D5). unfold is_u32, SIZE_MAX in *.
  destruct (single_to_multichannel_loop_ok (w * h) b) as [b' [E G]]; auto; try lia.
  unfold single_to_multichannel. simpl is_null.
  replace (w =? 0) with false by lia. replace (h =? 0) with false by lia. simpl orb. cbv iota.
  assert (SIZE_MAX / h <? w = false) as ->.
  { unfold SIZE_MAX; apply Z.ltb_ge. apply Z.div_le_lower_bound; nia. }
  cbv zeta. assert (u64 (w * h) = w * h) as -> by (apply u64_small; nia).
  replace (SIZE_MAX / 4 <? w * h) with false
    by (change (SIZE_MAX / 4) with 4611686018427387903; lia).
  rewrite u64_small by lia.
  eapply returns_fresh_1; eauto. cbv beta. split.
  - apply grays_exact in G; auto. intros i Hi'. eapply image_val; eauto.
  - intros x y Hx Hy.
    replace (pixv b w 1 x y 0) with (val b (y * w + x))
      by (unfold pixv, pix, val; replace ((y * w + x) * 1 + 0) with (y * w + x) by ring; reflexivity).
    eapply grays_opaque; eauto.
Qed.

Lemma gray_round_trip w h b b1 b2 : dims_ok w h -> image (w * h) b ->
  calls single_to_multichannel w h b b1 -> calls rgba_to_grayscale w h b1 b2 ->
  blen b2 = w * h /\ same_bytes (w * h) b b2.
Proof.
  intros D Hi C1 C2.
  assert (H1 := calls_inv' _ _ _ _ _ _ (fun s p Hwf Hp => single_to_multichannel_ok w h s p b Hwf D Hp Hi) C1).
  destruct H1 as [X1 G1].
  assert (H2 := calls_inv' _ _ _ _ _ _ (fun s p Hwf Hp => rgba_to_grayscale_ok w h s p b1 Hwf D Hp (proj2 X1)) C2).
  destruct H2 as [X2 G2]. split; [apply X2|]. intros i Hi'.
  unfold dims_ok in D. destruct (rm_decomp w h i) as (A & B & C); auto; try lia.
  specialize (G2 (i mod w) (i / w) A B).
  rewrite (opaque_gray_at _ _ _ _ _ (G1 _ _ A B)) in G2.
  unfold pixv, pix in G2. replace ((i / w * w + i mod w) * 1 + 0) with i in G2 by lia.
  destruct (image_val _ _ i Hi) as [Ev _]; [lia|]. rewrite Ev in G2. congruence.
Qed.
