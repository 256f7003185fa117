(** * Proofs about [M_Otsu.v] *)
From Verif Require Import Base BaseLemmas F Heap HeapLemmas Spec Spec_Color CountLemmas
  M_Color P_Color P_Color2 P_Color3 M_Otsu.

Lemma norm_loop_ok hist n : (forall i, 0 <= i < 256 -> exists c, load hist i = Ok c) ->
  exists hn, norm_loop hist n = Ok hn /\ blen hn = 256 /\ forall i, 0 <= i < 256 -> exists v, load hn i = Ok v.
Proof.
  intros H. unfold norm_loop.
  destruct (for_inv (fun _ (hn : buf f32) => blen hn = 256 /\ forall i, 0 <= i < 256 -> exists v, bget hn i = Some v) 0 256
    (fun i hn => c <- load hist i ;; store hn i (fdiv (f_of_Z c) (f_of_Z n))) (bconst 256 f0)) as [hn [E [L G]]].
  - lia.
  - split; [reflexivity|]. intros; eexists; reflexivity.
  - intros i hn Hi [L G]. destruct (H i Hi) as [c ->]. simpl bind. rewrite store_ok by lia.
    eexists; split; [reflexivity|]. split; [exact L|]. intros j Hj. rewrite bget_bset.
    destruct (j =? i); eauto.
  - exists hn; split; auto. split; auto. intros i Hi. destruct (G i Hi) as [v Hv]. exists v.
    apply load_ok; auto; lia.
Qed.

Lemma otsu_threshold_ok hist n : (forall i, 0 <= i < 256 -> exists c, load hist i = Ok c) ->
  exists t, otsu_threshold hist n = Ok t /\ 0 <= t < 256.
Proof.
  intros H. unfold otsu_threshold. destruct (norm_loop_ok hist n H) as (hn & -> & L & G). rewrite bind_Ok.
  unfold mean_loop.
  destruct (for_inv (fun _ (_ : f32) => True) 0 256
    (fun i gm => v <- load hn i ;; Ok (fadd gm (fmul (f_of_Z i) v))) f0) as [gm [-> _]]; [lia|auto| |].
  { intros i gm Hi _. destruct (G i Hi) as [v ->]. simpl bind. eauto. }
  rewrite bind_Ok.
  destruct (for_inv (fun _ o => 0 <= opt o < 256) 0 256 (otsu_step hn gm) (mkotsu f0 f0 f0 0)) as [o [-> Ho]];
    [lia|cbn; lia| |].
  { intros i o Hi Ho. unfold otsu_step. destruct (G i Hi) as [v ->]. rewrite bind_Ok. cbv zeta.
    destruct (feq _ f0 || feq _ f1); [eexists; split; [reflexivity|]; exact Ho|].
    destruct (flt (max_var o) _); (eexists; split; [reflexivity|]); cbn; lia. }
  rewrite bind_Ok. eauto.
Qed.

(** The threshold as a function of the level counts. *)
Definition hbuf (c : Z -> Z) : buf Z := mkbuf 256 (fun v => Some (c v)).
Definition T_otsu (c : Z -> Z) (n : Z) : Z :=
  match otsu_threshold (hbuf c) n with Ok t => t | _ => 0 end.

Lemma norm_loop_ext h1 h2 n : (forall i, 0 <= i < 256 -> load h1 i = load h2 i) ->
  norm_loop h1 n = norm_loop h2 n.
Proof. intros H. unfold norm_loop. apply for_ext. intros i hn Hi. now rewrite H. Qed.

Lemma otsu_threshold_ext h1 h2 n : (forall i, 0 <= i < 256 -> load h1 i = load h2 i) ->
  otsu_threshold h1 n = otsu_threshold h2 n.
Proof. intros H. unfold otsu_threshold. now rewrite (norm_loop_ext h1 h2). Qed.

Lemma load_hbuf c i : 0 <= i < 256 -> load (hbuf c) i = Ok (c i).
Proof. intros. apply load_ok; [exact H|reflexivity]. Qed.

Lemma T_otsu_range c n : 0 <= T_otsu c n < 256.
Proof.
  unfold T_otsu. destruct (otsu_threshold_ok (hbuf c) n) as [t [-> Ht]]; auto.
  intros i Hi. rewrite load_hbuf by auto. eauto.
Qed.

Lemma T_otsu_ext c c' n : (forall v, 0 <= v < 256 -> c v = c' v) -> T_otsu c n = T_otsu c' n.
Proof.
  intros H. unfold T_otsu. rewrite (otsu_threshold_ext (hbuf c) (hbuf c')); auto.
  intros i Hi. rewrite !load_hbuf by auto. now rewrite H.
Qed.

Lemma otsu_hist n f hist : is_hist n f hist ->
  otsu_threshold hist n = Ok (T_otsu (fun v => count (fun i => f i =? v) n) n).
Proof.
  intros [L G]. unfold T_otsu.
  rewrite (otsu_threshold_ext hist (hbuf (fun v => count (fun i => f i =? v) n))).
  - destruct (otsu_threshold_ok (hbuf (fun v => count (fun i => f i =? v) n)) n) as [t [-> Ht]]; auto.
    intros i Hi. rewrite load_hbuf by auto. eauto.
  - intros i Hi. rewrite load_hbuf by auto. apply load_ok; [lia|]. now apply G.
Qed.

Lemma T_otsu_eq c n t : otsu_threshold (hbuf c) n = Ok t -> T_otsu c n = t.
Proof. unfold T_otsu. now intros ->. Qed.

Global Opaque T_otsu.

Definition level (dbl : bool) (t g : Z) : Z :=
  if dbl then
    if t <? 16 then (if g <? t + 240 then 0 else 255)
    else if 239 <? t then (if g <? t - 16 then 0 else 255)
    else dbl_map (t - 16) (t + 16) g
  else if t <? g then 255 else 0.

Lemma u8_sub t : 0 <= t < 256 -> u8 (t - 16) = if t <? 16 then t + 240 else t - 16.
Proof. intros. unfold u8, U8. destruct (Z.ltb_spec t 16); Z.div_mod_to_equations; lia. Qed.
Lemma u8_add t : 0 <= t < 256 -> u8 (t + 16) = if 239 <? t then t - 240 else t + 16.
Proof. intros. unfold u8, U8. destruct (Z.ltb_spec 239 t); Z.div_mod_to_equations; lia. Qed.

Lemma dbl_level t g : 0 <= t < 256 -> byte g -> dbl_map (u8 (t - 16)) (u8 (t + 16)) g = level true t g.
Proof.
  unfold byte; intros. rewrite u8_sub, u8_add by auto. unfold level, dbl_map.
  destruct (Z.ltb_spec t 16).
  - replace (239 <? t) with false by lia. destruct (Z.ltb_spec g (t + 240)); auto.
    replace (t + 16 <? g) with true by lia. auto.
  - destruct (Z.ltb_spec 239 t); auto. destruct (Z.ltb_spec g (t - 16)); auto.
    replace (t - 240 <? g) with true by lia. auto.
Qed.

Lemma level_byte dbl t g : 0 <= t < 256 -> byte g -> byte (level dbl t g).
Proof.
  intros Ht Hg. destruct dbl.
  - rewrite <- dbl_level by auto.
    assert (u8 (t - 16) <> u8 (t + 16))
      by (rewrite u8_sub, u8_add by auto; destruct (Z.ltb_spec t 16), (Z.ltb_spec 239 t); lia).
    destruct (double_threshold_px_ok (u8 (t - 16)) (u8 (t + 16)) g); auto; apply u8_range.
  - unfold level. destruct (t <? g); unfold byte; lia.
Qed.

Lemma level_mono dbl t g g' : 0 <= t < 256 -> byte g -> byte g' -> g <= g' -> level dbl t g <= level dbl t g'.
Proof.
  intros Ht Hg Hg' Hle. pose proof (level_byte dbl t g Ht Hg) as B. pose proof (level_byte dbl t g' Ht Hg') as B'.
  unfold byte in *. unfold level in *. destruct dbl.
  - destruct (Z.ltb_spec t 16); [destruct (Z.ltb_spec g (t + 240)), (Z.ltb_spec g' (t + 240)); lia|].
    destruct (Z.ltb_spec 239 t); [destruct (Z.ltb_spec g (t - 16)), (Z.ltb_spec g' (t - 16)); lia|].
    unfold dbl_map in *.
    destruct (Z.ltb_spec g (t - 16)), (Z.ltb_spec g' (t - 16)); try lia.
    destruct (Z.ltb_spec (t + 16) g), (Z.ltb_spec (t + 16) g'); try lia.
    apply Z.div_le_mono; lia.
  - destruct (Z.ltb_spec t g), (Z.ltb_spec t g'); lia.
Qed.

Lemma otsu_apply_ok dbl n t g : 0 <= n < 4294967296 -> 0 <= t < 256 -> image n g ->
  exists b, otsu_apply dbl n t g = Ok b /\ blen b = blen g /\
    forall i, 0 <= i < n -> bget b i = Some (level dbl t (val g i)).
Proof.
  intros Hn Ht Hi. unfold otsu_apply. rewrite (u32_small n) by lia. destruct dbl.
  - destruct (double_threshold_ok n (u8 (t - 16)) (u8 (t + 16)) g) as (b & E & L & G & _); auto; try lia.
    + apply u8_range.
    + apply u8_range.
    + rewrite u8_sub, u8_add by auto. destruct (Z.ltb_spec t 16), (Z.ltb_spec 239 t); lia.
    + exists b; split; auto. split; auto. intros i Hi'. rewrite G by auto. f_equal.
      apply dbl_level; auto. eapply image_val; eauto.
  - rewrite (u8_small t) by lia.
    destruct (global_threshold_ok n t g) as (b & E & L & G & _); auto; try lia. exists b; auto.
Qed.

Lemma otsu_ok : forall w h s p b dbl,
  wf s -> dims_ok w h -> w * h < 4294967296 -> holds s p b -> image (w * h * 4) b ->
  returns_fresh s (otsu_threshold_rgba w h dbl p s) (fun b' =>
    exact_image (w * h * 4) b' /\
    let t := T_otsu (fun v => count_px w h (fun x y => gray_at b w x y =? v)) (w * h) in
    forall x y, 0 <= x < w -> 0 <= y < h -> opaque_gray b' w x y (level dbl t (gray_at b w x y))).
Proof.
  intros w h s p b dbl Hwf D Hn Hp Hi.
  pose proof D as (D1 & D2 & D3 & D4 & D5). unfold is_u32, SIZE_MAX in *.
  assert (Hn0 : 1 <= w * h) by nia.
  unfold otsu_threshold_rgba. pose proof Hp as [d [-> Hd]]. change (is_null (Ptr d)) with false.
  replace (w =? 0) with false by lia. replace (h =? 0) with false by lia. cbn [orb]. cbv iota.
  assert (SIZE_MAX / h <? w = false) as ->.
  { unfold SIZE_MAX; apply Z.ltb_ge. apply Z.div_le_lower_bound; nia. }
  destruct (rgba_to_grayscale_ok w h s (Ptr d) b Hwf D Hp Hi) as (q & s1 & E & L1 & M).
  rewrite (bindM_Ok _ _ _ _ _ E). destruct q as [|q].
  { change (is_null Null) with true. cbv iota. exists Null, s1. auto. }
  change (is_null (Ptr q)) with false. cbv iota zeta.
  destruct M as (Mq & (g & Eg & [[Lg Ig] Gg]) & Mo).
  rewrite (u64_small (w * h)) by lia.
  hget. destruct (histogram_loop_ok (w * h) g) as [hist [Eh Hh]]; auto; try lia.
  hlift Eh. hlift (otsu_hist _ _ _ Hh).
  match goal with |- context [T_otsu ?a ?b] => set (t := T_otsu a b) end.
  destruct (otsu_apply_ok dbl (w * h) t g) as (g' & Ea & La & Ga); auto; try lia; [apply T_otsu_range|].
  hlift Ea. hput.
  destruct L1 as (W1 & O1 & T1 & N1).
  set (s2 := mkst _ _ _ _).
  assert (W2 : wf s2).
  { intros i Hi'. unfold s2 in *. cbn [mem nxt] in *.
    assert (q < nxt s1). { destruct (Z.lt_ge_cases q (nxt s1)); auto. rewrite (W1 q) in Eg by auto. discriminate. }
    rewrite upd_other by lia. apply W1; auto. }
  assert (Hq2 : holds s2 (Ptr q) g') by (exists q; split; [reflexivity|]; unfold s2; mem_lookup).
  assert (I2 : image (w * h) g').
  { split; [lia|]. intros i Hi'. rewrite Ga by auto. eexists; split; [reflexivity|].
    apply level_byte; [apply T_otsu_range|]. eapply image_val; eauto. }
  destruct (single_to_multichannel_ok w h s2 (Ptr q) g' W2 D Hq2 I2) as (r & s3 & E3 & L3 & M3).
  rewrite (bindM_Ok _ _ _ _ _ E3). destruct L3 as (W3 & O3 & T3 & N3).
  assert (K : forall j, j <> q -> mem s2 j = mem s j).
  { intros j Hj. unfold s2. cbn [mem]. rewrite upd_other by lia. now apply Mo. }
  assert (Hq3 : mem s3 q = Some (OBytes g')).
  { destruct Hq2 as [q' [Eq Hq2]]. injection Eq as <-. destruct r as [|r].
    - destruct M3 as [M3 _]. rewrite M3; auto.
    - destruct M3 as (M3a & _ & M3b). rewrite M3b; auto. intros ->. congruence. }
  erewrite bindM_Ok; [| eapply free_ok; exact Hq3]. cbv beta.
  assert (Lf : later s (mkst (upd (mem s3) q None) (nxt s3) (orc s3) (tick s3))).
  { split; [|cbn; unfold s2 in *; cbn in *; repeat split; try congruence; try lia].
    intros i Hi'. cbn [mem nxt] in *. unfold upd. destruct (i =? q); auto. }
  exists r, (mkst (upd (mem s3) q None) (nxt s3) (orc s3) (tick s3)).
  split; [reflexivity|]. split; [exact Lf|]. destruct r as [|r].
  - destruct M3 as [M3 [k [Hk Ok3]]]. split.
    + intros i. cbn [mem]. unfold upd. destruct (Z.eqb_spec i q) as [->|]; [auto|]. rewrite M3. auto.
    + exists k. unfold s2 in *; cbn [tick orc] in *. split; [lia|]. rewrite <- O1. auto.
  - destruct M3 as (M3a & (b' & Eb & [X3 G3]) & M3b).
    assert (r <> q) by (intros ->; destruct Hq2 as [q' [Eq Hq2]]; injection Eq as <-; congruence).
    split; [rewrite <- K by auto; auto|]. split.
    + exists b'. split; [cbn [mem]; rewrite upd_other by auto; auto|]. split; [exact X3|].
      cbv zeta. intros x y Hx Hy. specialize (G3 x y Hx Hy).
      pose proof (rm_bound w h x y Hx Hy).
      assert (V : val g (y * w + x) = gray_at b w x y).
      { specialize (Gg x y Hx Hy). unfold pix in Gg. unfold val.
        replace ((y * w + x) * 1 + 0) with (y * w + x) in Gg by ring. now rewrite Gg. }
      assert (pixv g' w 1 x y 0 = level dbl t (gray_at b w x y)).
      { unfold pixv, pix. replace ((y * w + x) * 1 + 0) with (y * w + x) by ring.
        rewrite Ga by lia. now rewrite V. }
      assert (TT : T_otsu (fun v => count_px w h (fun x0 y0 => gray_at b w x0 y0 =? v)) (w * h) = t).
      2: { rewrite TT, <- H1. exact G3. }
      symmetry.
      unfold t. apply T_otsu_ext. intros v Hv. unfold count_px. apply count_ext. intros i Hi'.
      destruct (rm_decomp w h i) as (Rx & Ry & Ri); auto; try lia. f_equal.
      specialize (Gg _ _ Rx Ry). unfold pix in Gg. unfold val.
      replace ((i / w * w + i mod w) * 1 + 0) with i in Gg by lia. now rewrite Gg.
    + intros j Hj. cbn [mem]. unfold upd. destruct (Z.eqb_spec j q) as [->|]; [auto|]. rewrite M3b by auto. auto.
Qed.

Lemma otsu_spec : exists T : (Z -> Z) -> Z -> Z,
  (forall c n, 0 <= T c n < 256) /\
  (forall c c' n, (forall v, 0 <= v < 256 -> c v = c' v) -> T c n = T c' n) /\
  forall w h s p b, wf s -> dims_ok w h -> w * h < 4294967296 -> holds s p b -> image (w * h * 4) b ->
    let t := T (fun v => count_px w h (fun x y => gray_at b w x y =? v)) (w * h) in
    returns_fresh s (otsu_threshold_rgba w h false p s) (fun b' =>
      exact_image (w * h * 4) b' /\
      forall x y, 0 <= x < w -> 0 <= y < h ->
        opaque_gray b' w x y (if t <? gray_at b w x y then 255 else 0)) /\
    returns_fresh s (otsu_threshold_rgba w h true p s) (fun b' =>
      exact_image (w * h * 4) b' /\
      forall x y, 0 <= x < w -> 0 <= y < h ->
        opaque_gray b' w x y
          (if t <? 16 then (if gray_at b w x y <? t + 240 then 0 else 255)
           else if 239 <? t then (if gray_at b w x y <? t - 16 then 0 else 255)
           else dbl_map (t - 16) (t + 16) (gray_at b w x y))).
Proof.
  exists T_otsu. split; [exact T_otsu_range|]. split; [exact T_otsu_ext|].
  intros. split; [exact (otsu_ok w h s p b false H H0 H1 H2 H3)|exact (otsu_ok w h s p b true H H0 H1 H2 H3)].
Qed.

Lemma otsu_same_histogram dbl w1 h1 b1 b1' w2 h2 b2 b2' x1 y1 x2 y2 :
  dims_ok w1 h1 -> dims_ok w2 h2 -> w1 * h1 = w2 * h2 -> w1 * h1 < 4294967296 ->
  image (w1 * h1 * 4) b1 -> image (w2 * h2 * 4) b2 ->
  (forall v, 0 <= v < 256 -> count_px w1 h1 (fun x y => gray_at b1 w1 x y =? v) =
                             count_px w2 h2 (fun x y => gray_at b2 w2 x y =? v)) ->
  calls (fun w h p => otsu_threshold_rgba w h dbl p) w1 h1 b1 b1' ->
  calls (fun w h p => otsu_threshold_rgba w h dbl p) w2 h2 b2 b2' ->
  0 <= x1 < w1 -> 0 <= y1 < h1 -> 0 <= x2 < w2 -> 0 <= y2 < h2 ->
  gray_at b1 w1 x1 y1 = gray_at b2 w2 x2 y2 ->
  forall c, 0 <= c < 4 -> pix b1' w1 4 x1 y1 c = pix b2' w2 4 x2 y2 c.
Proof.
  intros D1 D2 En Hn I1 I2 Hc C1 C2 X1 Y1 X2 Y2 Hg c Hc'.
  apply (calls_inv' _ _ _ _ _ _ (fun s p Hwf Hp => otsu_ok w1 h1 s p b1 dbl Hwf D1 Hn Hp I1)) in C1.
  rewrite En in Hn.
  apply (calls_inv' _ _ _ _ _ _ (fun s p Hwf Hp => otsu_ok w2 h2 s p b2 dbl Hwf D2 Hn Hp I2)) in C2.
  cbv zeta in *. destruct C1 as [_ C1]. destruct C2 as [_ C2].
  specialize (C1 x1 y1 X1 Y1). specialize (C2 x2 y2 X2 Y2).
  rewrite (T_otsu_ext _ _ _ Hc), En, Hg in C1. unfold opaque_gray in *.
  assert (c = 0 \/ c = 1 \/ c = 2 \/ c = 3) as [-> | [-> | [-> | ->]]] by lia; intuition congruence.
Qed.

Lemma otsu_monotone dbl w h b b' x y x' y' g g' :
  dims_ok w h -> w * h < 4294967296 -> image (w * h * 4) b ->
  calls (fun w h p => otsu_threshold_rgba w h dbl p) w h b b' ->
  0 <= x < w -> 0 <= y < h -> 0 <= x' < w -> 0 <= y' < h ->
  gray_at b w x y <= gray_at b w x' y' ->
  pix b' w 4 x y 0 = Some g -> pix b' w 4 x' y' 0 = Some g' -> g <= g'.
Proof.
  intros D Hn Hi C Hx Hy Hx' Hy' Hle P P'.
  apply (calls_inv' _ _ _ _ _ _ (fun s p Hwf Hp => otsu_ok w h s p b dbl Hwf D Hn Hp Hi)) in C.
  cbv zeta in C. destruct C as [_ C]. destruct (C x y Hx Hy) as [A _]. destruct (C x' y' Hx' Hy') as [A' _].
  match goal with A : context [T_otsu ?a ?b] |- _ => set (t := T_otsu a b) in * end.
  assert (g = level dbl t (gray_at b w x y)) by congruence.
  assert (g' = level dbl t (gray_at b w x' y')) by congruence. subst g g'.
  apply level_mono; auto; [apply T_otsu_range| |]; rewrite <- lum_gray_at; eapply lum_byte; eauto; now apply rm_bound.
Qed.

Lemma otsu_rejects : forall w h s p dbl, wf s ->
  p = Null \/ w = 0 \/ h = 0 -> returns_null s (otsu_threshold_rgba w h dbl p s).
Proof.
  intros w h s data dbl Hwf Hbad. pose proof (returns_null_ret s Hwf) as R. unfold otsu_threshold_rgba.
  replace (is_null data || (w =? 0) || (h =? 0)) with true; [exact R|].
  destruct Hbad as [->|[->| ->]]; cbn; rewrite ?orb_true_r; reflexivity.
Qed.
