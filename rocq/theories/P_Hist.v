(** * Proofs about the histogram *)
From Verif Require Import Base BaseLemmas F Heap Spec HeapLemmas CountLemmas PaintLemmas Spec_Trim Spec_Morph Spec_Hist M_Hist P_Color.

(** ** Counting *)
Definition holds_counts (f : Z -> Z) (k : Z) (h : buf Z) : Prop :=
  blen h = 256 /\ forall v, 0 <= v < 256 -> bget h v = Some (u32 (count (fun i => f i =? v) k)).

Lemma counts_0 f : holds_counts f 0 (bconst 256 0).
Proof.
  split; [reflexivity|]. intros v Hv. rewrite count_0. simpl. unfold inb.
  change (blen (bconst 256 0)) with 256 in *.
  replace ((0 <=? v) && (v <? 256)) with true by lia. reflexivity.
Qed.

Lemma bump_ok f k h : 0 <= k -> byte (f k) -> holds_counts f k h ->
  exists h', bump h (f k) = Ok h' /\ holds_counts f (k + 1) h'.
Proof.
  intros Hk Hb [L H]. unfold byte in Hb. unfold bump. rewrite (load_ok h (f k) (u32 (count (fun i => f i =? f k) k))) by (auto; lia).
  rewrite bind_Ok. rewrite store_ok by lia. eexists; split; [reflexivity|]. split; [exact L|].
  intros v Hv. rewrite count_succ by lia. rewrite bget_bset. destruct (Z.eqb_spec v (f k)) as [->|N].
  - rewrite Z.eqb_refl. f_equal. unfold u32. rewrite Z.add_mod_idemp_l; [reflexivity|discriminate].
  - rewrite (proj2 (Z.eqb_neq (f k) v)) by lia. rewrite Z.add_0_r. auto.
Qed.

Section counting.
Variables (n ch : Z) (b : buf Z).
Hypothesis (Hn : 0 < n) (Hch : 0 < ch) (Hsz : n * ch <= SIZE_MAX) (Hi : image (n * ch) b).

Definition lev (c i : Z) : Z := val b (i * ch + c).

Lemma idx_in c i : 0 <= i < n -> 0 <= c < ch -> 0 <= i * ch + c < n * ch.
Proof. intros. split; [nia|]. assert (i * ch <= (n - 1) * ch) by (apply Z.mul_le_mono_nonneg_r; lia). lia. Qed.

Lemma lev_get c i : 0 <= i < n -> 0 <= c < ch -> bget b (i * ch + c) = Some (lev c i) /\ byte (lev c i).
Proof. intros H1 H2. destruct (image_val _ _ (i * ch + c) Hi (idx_in c i H1 H2)) as [? ?]. split; assumption. Qed.

Lemma lev_load c i : 0 <= i < n -> 0 <= c < ch -> load b (i * ch + c) = Ok (lev c i).
Proof.
  intros H1 H2. pose proof (idx_in c i H1 H2). destruct (lev_get c i H1 H2) as [E _].
  apply load_ok; auto. destruct Hi. lia.
Qed.

Lemma lev_count c v : 0 <= c < ch -> count (fun i => lev c i =? v) n = level_count b n ch c v.
Proof. intros Hc. apply count_ext. intros i Hin. rewrite (proj1 (lev_get c i Hin Hc)). reflexivity. Qed.

Lemma idx_64 c i : 0 <= i < n -> 0 <= c < ch -> u64 (i * ch + c) = i * ch + c.
Proof. intros H1 H2. pose proof (idx_in c i H1 H2). unfold SIZE_MAX in *. apply u64_small. lia. Qed.

Lemma gray_counts_ok : ch = 1 \/ ch = 4 ->
  exists h, gray_counts n ch b = Ok h /\ holds_counts (lev 0) n h.
Proof.
  intros C. unfold gray_counts.
  apply (for_inv (fun k h => holds_counts (lev 0) k h)); [lia|apply counts_0|].
  intros i h Hin IH.
  assert (E : (if ch =? 1 then load b i else load b (u64 (i * 4))) = Ok (lev 0 i)).
  { rewrite <- lev_load by lia. rewrite Z.add_0_r. destruct C as [C|C]; rewrite C; simpl; [f_equal; lia|].
    pose proof (idx_64 0 i Hin ltac:(lia)) as E. rewrite C, Z.add_0_r in E. rewrite E. reflexivity. }
  rewrite E, bind_Ok. apply bump_ok; auto; [lia|]. apply lev_get; lia.
Qed.

Lemma rgb_counts_ok :
  exists hr hg hb, rgb_counts n ch b = Ok (hr, hg, hb) /\ holds_counts (lev 0) n hr /\
    (3 <= ch -> holds_counts (lev 1) n hg /\ holds_counts (lev 2) n hb).
Proof.
  unfold rgb_counts.
  match goal with |- context [for_ 0 n ?body ?s0] =>
    destruct (for_inv (fun k (t : buf Z * buf Z * buf Z) => let '(hr, hg, hb) := t in
      holds_counts (lev 0) k hr /\ (3 <= ch -> holds_counts (lev 1) k hg /\ holds_counts (lev 2) k hb)) 0 n body s0)
      as ([[hr hg] hb] & E & P) end.
  - lia.
  - split; [apply counts_0|]. intros _; split; apply counts_0.
  - intros i [[hr hg] hb] Hin [P1 P2].
    assert (E0 : u64 (i * ch) = i * ch) by (rewrite <- (Z.add_0_r (i * ch)); apply idx_64; lia).
    pose proof (lev_load 0 i Hin ltac:(lia)) as L0. rewrite Z.add_0_r in L0.
    cbv beta iota zeta. rewrite !E0, L0, bind_Ok.
    destruct (bump_ok (lev 0) i hr) as (hr' & -> & R); auto; [lia|apply lev_get; lia|]. rewrite bind_Ok.
    destruct (Z.leb_spec 3 ch) as [C|C].
    + destruct (P2 C) as [P3 P4].
      rewrite idx_64 by lia. rewrite lev_load by lia. rewrite bind_Ok.
      destruct (bump_ok (lev 1) i hg) as (hg' & -> & G); auto; [lia|apply lev_get; lia|]. rewrite bind_Ok.
      rewrite idx_64 by lia. rewrite lev_load by lia. rewrite bind_Ok.
      destruct (bump_ok (lev 2) i hb) as (hb' & -> & B); auto; [lia|apply lev_get; lia|]. rewrite bind_Ok.
      exists (hr', hg', hb'). auto.
    + exists (hr', hg, hb). split; [reflexivity|]. split; [auto|lia].
  - exists hr, hg, hb. auto.
Qed.

Lemma is_gray_ok : ch = 4 ->
  exists g, is_gray_loop n b = Ok g /\ (g = true <-> gray_picture b n ch).
Proof.
  intros C. unfold is_gray_loop.
  assert (G : gray_picture b n ch <-> forall i, 0 <= i < n -> lev 1 i = lev 0 i /\ lev 2 i = lev 0 i).
  { unfold gray_picture.
    pose proof (fun i Hin => proj1 (lev_get 0 i Hin ltac:(lia))) as L0.
    pose proof (fun i Hin => proj1 (lev_get 1 i Hin ltac:(lia))) as L1.
    pose proof (fun i Hin => proj1 (lev_get 2 i Hin ltac:(lia))) as L2.
    split.
    - intros [?|[_ H]] i Hin; [lia|]. specialize (H i Hin). specialize (L0 i Hin). rewrite Z.add_0_r in L0.
      rewrite <- C in H. rewrite L0, L1, L2 in H by auto. destruct H as [H1 H2]. split; congruence.
    - intros H. right. split; [exact C|]. intros i Hin. destruct (H i Hin) as [H1 H2].
      specialize (L0 i Hin). rewrite Z.add_0_r in L0. rewrite <- C. rewrite L0, L1, L2 by auto. rewrite H1, H2. auto. }
  match goal with |- context [for_brk 0 n ?body tt] =>
    destruct (for_brk_inv (fun k (_ : unit) => forall i, 0 <= i < k -> lev 1 i = lev 0 i /\ lev 2 i = lev 0 i)
      (fun (_ : unit) => exists i, 0 <= i < n /\ ~ (lev 1 i = lev 0 i /\ lev 2 i = lev 0 i)) 0 n body tt)
      as [(r & E & P)|(r & E & P)] end.
  - lia.
  - intros i Hin; lia.
  - intros i _ Hin IH.
    pose proof (idx_64 0 i Hin ltac:(lia)) as E0. pose proof (idx_64 1 i Hin ltac:(lia)) as E1'.
    pose proof (idx_64 2 i Hin ltac:(lia)) as E2'.
    pose proof (lev_load 0 i Hin ltac:(lia)) as L0. pose proof (lev_load 1 i Hin ltac:(lia)) as L1.
    pose proof (lev_load 2 i Hin ltac:(lia)) as L2.
    rewrite Z.add_0_r in E0, L0. rewrite <- C. cbv zeta. rewrite E0, E1', E2', L0, L1, L2. rewrite !bind_Ok.
    destruct (Z.eqb_spec (lev 0 i) (lev 1 i)) as [X|X]; cbn [negb].
    + destruct (Z.eqb_spec (lev 0 i) (lev 2 i)) as [Y|Y]; cbn [negb].
      * left. exists tt. split; [reflexivity|]. intros j Hj. destruct (Z.eq_dec j i) as [->|]; [auto|apply IH; lia].
      * right. exists tt. split; [reflexivity|]. exists i. split; [lia|]. intros [_ ?]; auto.
    + right. exists tt. split; [reflexivity|]. exists i. split; [lia|]. intros [? _]; auto.
  - rewrite E, bind_Ok. exists true. split; [reflexivity|]. rewrite G. tauto.
  - rewrite E, bind_Ok. exists false. split; [reflexivity|]. rewrite G. split; [discriminate|]. intros H.
    destruct P as (i & Hin & P). destruct (P (H i Hin)).
Qed.
End counting.

(** ** Maximum *)
Lemma ltb_max a b : (if a <? b then b else a) = Z.max a b.
Proof. destruct (Z.ltb_spec a b); lia. Qed.

Lemma gray_max_ok f k h : holds_counts f k h ->
  exists m, gray_max h = Ok m /\ largest 1 m (fun _ v => u32 (count (fun i => f i =? v) k)).
Proof.
  intros [L H]. unfold gray_max.
  match goal with |- context [for_ 0 256 ?body 0] =>
    destruct (for_inv (fun j m => 0 <= m /\ (forall v, 0 <= v < j -> u32 (count (fun i => f i =? v) k) <= m) /\
      ((j = 0 /\ m = 0) \/ exists v, 0 <= v < 256 /\ u32 (count (fun i => f i =? v) k) = m)) 0 256 body 0)
      as (m & E & P1 & P2 & P3) end.
  - lia.
  - split; [lia|]. split; [intros; lia|auto].
  - intros j m Hj (P1 & P2 & P3). rewrite (load_ok h j _) by (eauto; lia). rewrite bind_Ok.
    eexists; split; [reflexivity|].
    pose proof (u32_range (count (fun i => f i =? j) k)) as R.
    assert (Q : forall v, 0 <= v < j + 1 -> v = j \/ 0 <= v < j) by lia.
    destruct (Z.ltb_spec m (u32 (count (fun i => f i =? j) k))) as [C|C].
    + split; [lia|]. split; [|right; exists j; auto].
      intros v Hv. destruct (Q v Hv) as [->|Hv']; [lia|]. specialize (P2 v Hv'). lia.
    + split; [lia|]. split; [intros v Hv; destruct (Q v Hv) as [->|Hv']; auto|].
      right. destruct P3 as [[-> ->]|P3]; [|exact P3]. exists 0. split; lia.
  - exists m. split; [exact E|]. destruct P3 as [[? _]|(v & Hv & P3)]; [lia|]. split.
    + intros c v' _ Hv'. auto.
    + exists 0, v. split; [lia|]. auto.
Qed.

Lemma rgb_max_ok f k ch hr hg hb : holds_counts (f 0) k hr ->
  (3 <= ch -> holds_counts (f 1) k hg /\ holds_counts (f 2) k hb) ->
  exists m, rgb_max ch hr hg hb = Ok m /\ largest (counted ch) m (fun c v => u32 (count (fun i => f c i =? v) k)).
Proof.
  intros [Lr Hr] HGB. unfold rgb_max. set (F := fun c v => u32 (count (fun i => f c i =? v) k)).
  assert (FR : forall c v, 0 <= F c v) by (intros; apply u32_range).
  match goal with |- context [for_ 0 256 ?body 0] =>
    destruct (for_inv (fun j m => 0 <= m /\ (forall c v, 0 <= c < counted ch -> 0 <= v < j -> F c v <= m) /\
      ((j = 0 /\ m = 0) \/ exists c v, 0 <= c < counted ch /\ 0 <= v < 256 /\ F c v = m)) 0 256 body 0)
      as (m & E & P1 & P2 & P3) end.
  - lia.
  - split; [lia|]. split; [intros; lia|auto].
  - intros j m Hj (P1 & P2 & P3).
    assert (Q : forall v, 0 <= v < j + 1 -> v = j \/ 0 <= v < j) by lia.
    assert (C0 : 0 < counted ch) by (unfold counted; destruct (3 <=? ch); lia).
    assert (Step : forall m', m <= m' -> (forall c, 0 <= c < counted ch -> F c j <= m') ->
      m' = m \/ (exists c, 0 <= c < counted ch /\ m' = F c j) ->
      0 <= m' /\ (forall c v, 0 <= c < counted ch -> 0 <= v < j + 1 -> F c v <= m') /\
      ((j + 1 = 0 /\ m' = 0) \/ exists c v, 0 <= c < counted ch /\ 0 <= v < 256 /\ F c v = m')).
    { intros m' M1 M2 M3. split; [lia|]. split.
      - intros c v Hc Hv. destruct (Q v Hv) as [->|Hv']; [auto|]. specialize (P2 c v Hc Hv'). lia.
      - right. destruct M3 as [->|(c & Hc & ->)]; [|exists c, j; auto].
        destruct P3 as [[-> ->]|P3]; [|exact P3]. exists 0, 0. specialize (M2 0 ltac:(lia)). specialize (FR 0 0). split; [lia|split; lia]. }
    rewrite (load_ok hr j (F 0 j)) by first [apply Hr; lia|lia]. rewrite bind_Ok.
    unfold counted in *. destruct (Z.leb_spec 3 ch) as [C|C].
    + destruct (HGB C) as [[Lg Hg] [Lb Hb]].
      rewrite (load_ok hg j (F 1 j)) by first [apply Hg; lia|lia]. rewrite bind_Ok.
      rewrite (load_ok hb j (F 2 j)) by first [apply Hb; lia|lia]. rewrite bind_Ok.
      eexists; split; [reflexivity|]. apply Step.
      * rewrite !ltb_max. lia.
      * intros c Hc. rewrite !ltb_max. assert (c = 0 \/ c = 1 \/ c = 2) as [->|[->| ->]] by lia; lia.
      * rewrite !ltb_max.
        assert (D : forall a x, Z.max a x = a \/ Z.max a x = x) by (intros; lia).
        destruct (D (Z.max (Z.max m (F 0 j)) (F 1 j)) (F 2 j)) as [->| ->]; [|right; exists 2; split; [lia|reflexivity]].
        destruct (D (Z.max m (F 0 j)) (F 1 j)) as [->| ->]; [|right; exists 1; split; [lia|reflexivity]].
        destruct (D m (F 0 j)) as [->| ->]; [left; reflexivity|right; exists 0; split; [lia|reflexivity]].
    + eexists; split; [reflexivity|]. apply Step.
      * destruct (Z.ltb_spec m (F 0 j)); lia.
      * intros c Hc. replace c with 0 by lia. destruct (Z.ltb_spec m (F 0 j)); lia.
      * destruct (Z.ltb_spec m (F 0 j)); auto. right. exists 0. split; [lia|reflexivity].
  - exists m. split; [exact E|]. destruct P3 as [[? _]|P3]; [lia|]. split; auto.
Qed.

(** ** Drawing *)
Definition hval (bars : Z -> Z -> Z) (j : Z) : Z :=
  let c := j mod 4 in let p := j / 4 in
  if c =? 3 then 255 else if 200 - bars c (p mod 256) <=? p / 256 then 255 else 0.

Lemma hval_at bars x y c : 0 <= x < 256 -> 0 <= c < 4 ->
  hval bars ((y * 256 + x) * 4 + c) = if c =? 3 then 255 else if 200 - bars c x <=? y then 255 else 0.
Proof.
  intros Hx Hc. unfold hval.
  assert (D : forall a k r, 0 < k -> 0 <= r < k -> (a * k + r) mod k = r /\ (a * k + r) / k = a).
  { intros a k r Hk Hr. rewrite Z.add_comm. rewrite Z.mod_add, Z.div_add, Z.mod_small, Z.div_small by lia. lia. }
  destruct (D (y * 256 + x) 4 c) as [-> ->]; try lia. destruct (D y 256 x) as [-> ->]; try lia.
Qed.

Definition in_px (x y j : Z) : Prop := exists c, 0 <= c < 4 /\ j = ((199 - y) * 256 + x) * 4 + c.

Lemma bar_px_ok bars x y r g b o : blen o = 204800 -> 0 <= x < 256 -> 0 <= y < 200 ->
  r = (if y <? bars 0 x then 255 else 0) -> g = (if y <? bars 1 x then 255 else 0) -> b = (if y <? bars 2 x then 255 else 0) ->
  exists o', bar_px x y r g b o = Ok o' /\ paints (hval bars) (in_px x y) o o'.
Proof.
  intros L Hx Hy Hr Hg Hb. unfold bar_px.
  replace (200 - 1 - y) with (199 - y) by lia. rewrite (u32_small (199 - y)) by lia.
  rewrite (u32_small ((199 - y) * 256)) by lia. rewrite (u32_small ((199 - y) * 256 + x)) by lia.
  rewrite (u32_small (((199 - y) * 256 + x) * 4)) by lia.
  set (i := ((199 - y) * 256 + x) * 4). assert (0 <= i /\ i + 3 < 204800) by (unfold i; lia).
  rewrite !u32_small by lia.
  assert (V : forall c, 0 <= c < 4 -> hval bars (i + c) = if c =? 3 then 255 else if y <? bars c x then 255 else 0).
  { intros c Hc. unfold i. rewrite hval_at by lia. destruct (c =? 3); auto.
    destruct (Z.leb_spec (200 - bars c x) (199 - y)), (Z.ltb_spec y (bars c x)); auto; lia. }
  destruct (paints_store (hval bars) o (i + 0) r) as (o1 & S1 & P1); [lia|rewrite V by lia; exact Hr|].
  rewrite Z.add_0_r in S1. rewrite S1, bind_Ok. assert (L1 : blen o1 = 204800) by (destruct P1; congruence).
  destruct (paints_store (hval bars) o1 (i + 1) g) as (o2 & S2 & P2); [lia|rewrite V by lia; exact Hg|].
  rewrite S2, bind_Ok. assert (L2 : blen o2 = 204800) by (destruct P2; congruence).
  destruct (paints_store (hval bars) o2 (i + 2) b) as (o3 & S3 & P3); [lia|rewrite V by lia; exact Hb|].
  rewrite S3, bind_Ok. assert (L3 : blen o3 = 204800) by (destruct P3; congruence).
  destruct (paints_store (hval bars) o3 (i + 3) 255) as (o4 & S4 & P4); [lia|rewrite V by lia; reflexivity|].
  exists o4. split; [exact S4|].
  eapply paints_iff; [|exact (paints_trans _ _ _ _ _ _ P1 (paints_trans _ _ _ _ _ _ P2 (paints_trans _ _ _ _ _ _ P3 P4)))].
  intros j. unfold in_px. fold i. split.
  - intros [-> | [-> | [-> | ->]]]; eexists; (split; [|reflexivity]); lia.
  - intros (c & Hc & ->). assert (c = 0 \/ c = 1 \/ c = 2 \/ c = 3) as [->|[->|[->| ->]]] by lia; auto.
Qed.

Lemma alpha_ok o : blen o = 204800 -> (forall j, 0 <= j < 204800 -> bget o j = Some 0) ->
  exists o', alpha_loop o = Ok o' /\ blen o' = 204800 /\
    forall j, 0 <= j < 204800 -> bget o' j = Some (hval (fun _ _ => 0) j).
Proof.
  intros L Z0. unfold alpha_loop. change (256 * 200) with 51200.
  destruct (for_paints (fun _ => 255) (fun i j => j = i * 4 + 3) 0 51200
    (fun i output => store output (u32 (u32 (i * 4) + 3)) 255) o 204800 L) as (o' & E & [L' P]).
  { intros i o1 Hi L1. rewrite (u32_small (i * 4)) by lia. rewrite u32_small by lia.
    apply paints_store; [lia|reflexivity]. }
  exists o'. split; [exact E|]. split; [congruence|]. intros j Hj.
  pose proof (Z.div_mod j 4 ltac:(lia)). pose proof (Z.mod_pos_bound j 4 ltac:(lia)).
  assert (B : 0 <= j / 4 / 256 < 200).
  { split; [apply Z.div_pos; [apply Z.div_pos; lia|lia]|]. apply Z.div_lt_upper_bound; [lia|]. lia. }
  unfold hval. destruct (P j) as [P1 P2]. destruct (Z.eqb_spec (j mod 4) 3) as [C|C].
  - apply P1. exists (j / 4). lia.
  - destruct P2 as [->|[(i & Hi & ->) _]].
    + rewrite Z0 by lia. replace (200 - 0 <=? j / 4 / 256) with false by lia. reflexivity.
    + exfalso. apply C. rewrite Z.add_comm, Z.mod_add, Z.mod_small; lia.
Qed.

(** Columns are drawn up to the highest bar of the column. *)
Lemma bars_ok bars top body o :
  (forall j, 0 <= j < 204800 -> bget o j = Some (hval (fun _ _ => 0) j)) -> blen o = 204800 ->
  (forall x, 0 <= x < 256 -> top x <= 200) ->
  (forall c x, 0 <= c < 3 -> 0 <= x < 256 -> bars c x <= top x) ->
  (forall c x, 0 <= c < 3 -> 0 <= x < 256 -> 0 <= bars c x) ->
  (forall x o, 0 <= x < 256 -> blen o = 204800 ->
     exists o', body x o = Ok o' /\ paints (hval bars) (fun j => exists y, 0 <= y < top x /\ in_px x y j) o o') ->
  exists o', for_ 0 256 body o = Ok o' /\ blen o' = 204800 /\
    forall j, 0 <= j < 204800 -> bget o' j = Some (hval bars j).
Proof.
  intros Z0 L T1 T2 T3 H.
  destruct (for_paints (hval bars) (fun x j => exists y, 0 <= y < top x /\ in_px x y j) 0 256 body o 204800 L H)
    as (o' & E & [L' P]).
  exists o'. split; [exact E|]. split; [congruence|]. intros j Hj. destruct (P j) as [P1 P2].
  destruct (px_decomp 256 200 4 j) as (x & y & c & Hx & Hy & Hc & ->); try lia.
  destruct (Z.lt_ge_cases y (200 - top x)) as [C|C].
  - destruct P2 as [->|[_ P2]]; [|exact P2]. rewrite Z0 by lia. rewrite !hval_at by lia.
    destruct (Z.eqb_spec c 3); [reflexivity|]. specialize (T2 c x ltac:(lia) Hx).
    replace (200 - 0 <=? y) with false by lia. replace (200 - bars c x <=? y) with false by lia. reflexivity.
  - apply P1. exists x. split; [lia|]. exists (199 - y). split; [lia|]. exists c. split; [lia|]. f_equal; lia.
Qed.

Definition bar_of (k m : Z) : Z := u32 (k * 200) / m.
Lemma bar_of_range k m : 0 <= k <= m -> 0 < m -> 0 <= bar_of k m <= 200.
Proof.
  intros Hk Hm. unfold bar_of. assert (0 <= u32 (k * 200) <= k * 200).
  { unfold u32. split; [apply Z.mod_pos_bound; unfold U32; lia|]. apply Z.mod_le; [lia|unfold U32; lia]. }
  split; [apply Z.div_pos; lia|]. apply Z.div_le_upper_bound; lia.
Qed.

Lemma gray_bars_ok f h m o : blen h = 256 -> (forall v, 0 <= v < 256 -> bget h v = Some (f v)) ->
  0 < m -> (forall v, 0 <= v < 256 -> 0 <= f v <= m) ->
  (forall j, 0 <= j < 204800 -> bget o j = Some (hval (fun _ _ => 0) j)) -> blen o = 204800 ->
  exists o', gray_bars h m o = Ok o' /\ blen o' = 204800 /\
    forall j, 0 <= j < 204800 -> bget o' j = Some (hval (fun _ x => bar_of (f x) m) j).
Proof.
  intros L H Hm Hf Z0 Lo.
  assert (R : forall x, 0 <= x < 256 -> 0 <= bar_of (f x) m <= 200) by (intros; apply bar_of_range; auto).
  apply (bars_ok (fun _ x => bar_of (f x) m) (fun x => bar_of (f x) m)); auto; try (intros; apply R; lia); [intros; lia|].
  intros x o1 Hx L1. rewrite (load_ok h x (f x)) by (auto; lia). rewrite bind_Ok.
  unfold udiv. replace (m =? 0) with false by lia. rewrite bind_Ok. fold (bar_of (f x) m).
  apply for_paints with (L := 204800); [exact L1|]. intros y o2 Hy L2. specialize (R x Hx).
  apply bar_px_ok; auto; try lia; replace (y <? bar_of (f x) m) with true by lia; reflexivity.
Qed.

Lemma rgb_bars_ok f ch hr hg hb m o : blen hr = 256 -> (forall v, 0 <= v < 256 -> bget hr v = Some (f 0 v)) ->
  (3 <= ch -> blen hg = 256 /\ blen hb = 256 /\ forall v, 0 <= v < 256 -> bget hg v = Some (f 1 v) /\ bget hb v = Some (f 2 v)) ->
  0 < m -> (forall c v, 0 <= c < counted ch -> 0 <= v < 256 -> 0 <= f c v <= m) ->
  (forall j, 0 <= j < 204800 -> bget o j = Some (hval (fun _ _ => 0) j)) -> blen o = 204800 ->
  exists o', rgb_bars ch hr hg hb m o = Ok o' /\ blen o' = 204800 /\
    forall j, 0 <= j < 204800 -> bget o' j = Some (hval (fun c x => if counted ch <=? c then 0 else bar_of (f c x) m) j).
Proof.
  intros Lr Hr HGB Hm Hf Z0 Lo. set (bars := fun c x => if counted ch <=? c then 0 else bar_of (f c x) m).
  assert (R : forall c x, 0 <= c < 3 -> 0 <= x < 256 -> 0 <= bars c x <= 200).
  { intros c x Hc Hx. unfold bars. destruct (Z.leb_spec (counted ch) c); [lia|]. apply bar_of_range; auto. apply Hf; auto. lia. }
  set (top := fun x => Z.max (Z.max (bars 0 x) (bars 1 x)) (bars 2 x)).
  apply (bars_ok bars top); auto.
  - intros x Hx. unfold top. pose proof (R 0 x). pose proof (R 1 x). pose proof (R 2 x). lia.
  - intros c x Hc Hx. unfold top. assert (c = 0 \/ c = 1 \/ c = 2) as [->|[->| ->]] by lia; lia.
  - intros; apply R; auto.
  - intros x o1 Hx L1. rewrite (load_ok hr x (f 0 x)) by (auto; lia). rewrite bind_Ok.
    unfold udiv. replace (m =? 0) with false by lia. rewrite bind_Ok. fold (bar_of (f 0 x) m).
    assert (B0 : bar_of (f 0 x) m = bars 0 x).
    { unfold bars. replace (counted ch <=? 0) with false; [reflexivity|]. unfold counted; destruct (3 <=? ch); reflexivity. }
    assert (B1 : (if 3 <=? ch then k <- load hg x ;; Ok (u32 (k * 200) / m) else Ok 0) = Ok (bars 1 x)).
    { unfold bars, counted. destruct (Z.leb_spec 3 ch) as [C|C]; [|reflexivity]. destruct (HGB C) as (Lg & Lb & H).
      rewrite (load_ok hg x (f 1 x)) by first [apply H; lia|lia]. reflexivity. }
    assert (B2 : (if 3 <=? ch then k <- load hb x ;; Ok (u32 (k * 200) / m) else Ok 0) = Ok (bars 2 x)).
    { unfold bars, counted. destruct (Z.leb_spec 3 ch) as [C|C]; [|reflexivity]. destruct (HGB C) as (Lg & Lb & H).
      rewrite (load_ok hb x (f 2 x)) by first [apply H; lia|lia]. reflexivity. }
    rewrite B0, B1, B2. rewrite !bind_Ok.
    assert (T : (if (if bars 0 x <? bars 1 x then bars 1 x else bars 0 x) <? bars 2 x then bars 2 x
                 else if bars 0 x <? bars 1 x then bars 1 x else bars 0 x) = top x).
    { unfold top. destruct (Z.ltb_spec (bars 0 x) (bars 1 x));
        match goal with |- context [?a <? ?b] => destruct (Z.ltb_spec a b) end; lia. }
    cbv zeta. rewrite T.
    apply for_paints with (L := 204800); [exact L1|]. intros y o2 Hy L2.
    assert (top x <= 200) by (unfold top; pose proof (R 0 x); pose proof (R 1 x); pose proof (R 2 x); lia).
    assert (N : ch < 3 -> bars 1 x = 0 /\ bars 2 x = 0).
    { intros C. unfold bars, counted. replace (3 <=? ch) with false by lia. auto. }
    apply bar_px_ok; auto; try lia;
      (destruct (Z.leb_spec 3 ch) as [C|C]; [reflexivity|]; destruct (N C) as [E1' E2']; rewrite ?E1', ?E2';
       match goal with |- context [y <? 0] => replace (y <? 0) with false by lia; reflexivity end).
Qed.

(** ** Everything together *)
Definition wrapped (k : Z) : Z := k mod 4294967296.

Lemma counted_le ch c : 0 < ch -> 0 <= c < counted ch -> 0 <= c < ch.
Proof. unfold counted; intros ? ?; destruct (Z.leb_spec 3 ch); lia. Qed.

Lemma largest_ext k m f g : (forall c v, 0 <= c < k -> 0 <= v < 256 -> f c v = g c v) -> largest k m f -> largest k m g.
Proof.
  intros E [H1 (c & v & Hc & Hv & H2)]. split.
  - intros c' v' Hc' Hv'. rewrite <- E by auto. auto.
  - exists c, v. rewrite <- E by auto. auto.
Qed.

Lemma hist_draw_ok n ch b o : 0 < n -> 0 < ch -> n * ch <= SIZE_MAX -> image (n * ch) b ->
  (forall j, 0 <= j < 204800 -> bget o j = Some (hval (fun _ _ => 0) j)) -> blen o = 204800 ->
  exists bars o', hist_draw n ch b o = Ok o' /\ blen o' = 204800 /\
    (forall j, 0 <= j < 204800 -> bget o' j = Some (hval bars j)) /\
    hist_bars_by (fun k => wrapped (k * 200)) (fun c v => wrapped (level_count b n ch c v)) (gray_picture b n ch) ch bars.
Proof.
  intros Hn Hch Hsz Hi Z0 Lo. unfold hist_draw.
  assert (G : exists g, (if ch =? 4 then is_gray_loop n b else Ok (ch =? 1)) = Ok g /\ (g = true <-> gray_picture b n ch)).
  { destruct (Z.eqb_spec ch 4) as [C|C]; [apply is_gray_ok; auto|].
    exists (ch =? 1). split; [reflexivity|]. unfold gray_picture. rewrite Z.eqb_eq. tauto. }
  destruct G as (g & -> & G). rewrite bind_Ok. destruct g.
  - assert (Gr : gray_picture b n ch) by (apply G; reflexivity).
    destruct (gray_counts_ok n ch b) as (h & -> & Hh); auto; [destruct Gr as [?|[? _]]; auto|]. rewrite bind_Ok.
    destruct (gray_max_ok _ _ _ Hh) as (m & -> & Hm). rewrite bind_Ok. destruct Hh as [Lh Hh].
    assert (Ec : forall v, u32 (count (fun i => lev ch b 0 i =? v) n) = wrapped (level_count b n ch 0 v)).
    { intros v. unfold u32, wrapped. rewrite (lev_count n ch b) by (auto; lia). reflexivity. }
    assert (Hm' : largest 1 m (fun c v => wrapped (level_count b n ch c v))).
    { eapply largest_ext; [|exact Hm]. intros c v Hc Hv. replace c with 0 by lia. apply Ec. }
    destruct (Z.eqb_spec m 0) as [M0|M0].
    + exists (fun _ _ => 0), o. split; [reflexivity|]. split; [exact Lo|]. split; [exact Z0|]. split; [|intros; tauto].
      intros _. exists m. split; [exact Hm'|]. intros. replace (m =? 0) with true by lia. reflexivity.
    + assert (0 <= m). { destruct Hm' as [_ (c & v & _ & _ & <-)]. apply Z.mod_pos_bound; lia. }
      set (f := fun v => wrapped (level_count b n ch 0 v)).
      destruct (gray_bars_ok f h m o Lh) as (o' & E & Lo' & Ho'); auto; try lia.
      { intros v Hv. rewrite Hh, Ec by auto. reflexivity. }
      { intros v Hv. split; [apply Z.mod_pos_bound; lia|]. apply (proj1 Hm' 0 v); lia. }
      eexists _, o'. split; [exact E|]. split; [exact Lo'|]. split; [exact Ho'|]. split; [|intros; tauto].
      intros _. exists m. split; [exact Hm'|]. intros. replace (m =? 0) with false by lia. reflexivity.
  - assert (NG : ~ gray_picture b n ch) by (intros X; apply G in X; discriminate).
    destruct (rgb_counts_ok n ch b) as (hr & hg & hb & -> & Hr & HGB); auto. rewrite bind_Ok. cbv iota.
    destruct (rgb_max_ok _ _ _ _ _ _ Hr HGB) as (m & -> & Hm). rewrite bind_Ok.
    assert (Ec : forall c v, 0 <= c < counted ch -> u32 (count (fun i => lev ch b c i =? v) n) = wrapped (level_count b n ch c v)).
    { intros c v Hc. unfold u32, wrapped. rewrite (lev_count n ch b) by (auto; apply counted_le; auto). reflexivity. }
    assert (Hm' : largest (counted ch) m (fun c v => wrapped (level_count b n ch c v))).
    { eapply largest_ext; [|exact Hm]. intros c v Hc Hv. apply Ec; auto. }
    assert (C0 : 0 < counted ch) by (unfold counted; destruct (3 <=? ch); lia).
    destruct (Z.eqb_spec m 0) as [M0|M0].
    + exists (fun _ _ => 0), o. split; [reflexivity|]. split; [exact Lo|]. split; [exact Z0|]. split; [intros; tauto|].
      intros _. exists m. split; [exact Hm'|]. intros. replace (m =? 0) with true by lia. reflexivity.
    + assert (0 <= m). { destruct Hm' as [_ (c & v & _ & _ & <-)]. apply Z.mod_pos_bound; lia. }
      destruct Hr as [Lr Hr].
      destruct (rgb_bars_ok (fun c v => wrapped (level_count b n ch c v)) ch hr hg hb m o Lr) as (o' & E & Lo' & Ho'); auto; try lia.
      { intros v Hv. rewrite Hr, Ec by (auto; lia). reflexivity. }
      { intros C. destruct (HGB C) as [[Lg Hg] [Lb Hb]]. do 2 (split; [assumption|]). intros v Hv.
        rewrite Hg, Hb, !Ec by (auto; unfold counted; replace (3 <=? ch) with true by lia; lia). auto. }
      { intros c v Hc Hv. split; [apply Z.mod_pos_bound; lia|]. apply (proj1 Hm' c v); lia. }
      eexists _, o'. split; [exact E|]. split; [exact Lo'|]. split; [exact Ho'|]. split; [intros; tauto|].
      intros _. exists m. split; [exact Hm'|]. intros. replace (m =? 0) with false by lia. reflexivity.
Qed.

Lemma hval_chart bars b : blen b = 204800 -> (forall j, 0 <= j < 204800 -> bget b j = Some (hval bars j)) -> bar_chart bars b.
Proof.
  intros L H. split.
  - split; [exact L|]. split; [rewrite L; reflexivity|]. intros j Hj. eexists; split; [apply H; exact Hj|].
    unfold byte, hval. cbv zeta. destruct (Z.eqb (j mod 4) 3); [lia|]. match goal with |- context [if ?t then _ else _] => destruct t end; lia.
  - intros x y [Hx Hy]. unfold pix. split.
    + rewrite H by lia. rewrite hval_at by lia. reflexivity.
    + intros c Hc. rewrite H by lia. rewrite hval_at by lia. replace (c =? 3) with false by lia. reflexivity.
Qed.

Lemma histogram_general w h ch s p b ow oh :
  wf s -> 0 < w -> 0 < h -> 0 < ch -> w * h * ch <= SIZE_MAX -> holds s p b -> image (w * h * ch) b ->
  returns_sized s (generate_histogram w h ch p ow oh s) (fun w' h' b' => w' = 256 /\ h' = 200 /\
    exists bars, bar_chart bars b' /\
      hist_bars_by (fun k => wrapped (k * 200)) (fun c v => wrapped (level_count b (w * h) ch c v)) (gray_picture b (w * h) ch) ch bars).
Proof.
  intros Hwf Hw Hh Hch Hsz (d & -> & Hd) Hi.
  assert (N : 0 < w * h) by nia. assert (N1 : w * h <= w * h * ch) by nia.
  assert (Q1 : w <= SIZE_MAX / h) by (apply Z.div_le_lower_bound; lia).
  assert (Q2 : w * h <= SIZE_MAX / ch) by (apply Z.div_le_lower_bound; lia).
  unfold generate_histogram. change (is_null (Ptr d)) with false. cbv iota.
  replace (w =? 0) with false by lia. replace (h =? 0) with false by lia. replace (ch =? 0) with false by lia. cbn [orb].
  replace (SIZE_MAX / h <? w) with false by lia. rewrite u64_small by (unfold SIZE_MAX in *; lia).
  replace (SIZE_MAX / ch <? w * h) with false by lia. cbv iota.
  destruct (alloc_cases s (OBytes (bconst (256 * 200 * 4) 0)) Hwf) as [(E & F)|(E & F)].
  - rewrite (bindM_Ok _ _ _ _ _ E). cbn [is_null]. eexists _, _, _, _. split; [reflexivity|].
    split; [split; [apply wf_tick; exact Hwf|cbn [orc tick nxt mem]; split; [reflexivity|split; lia]]|]. split.
    + intros i; reflexivity.
    + exists (tick s). cbn [tick]. split; [lia|exact F].
  - rewrite (bindM_Ok _ _ _ _ _ E). change (is_null (Ptr (nxt s))) with false. cbv iota.
    set (s1 := mkst _ _ _ _).
    assert (M1 : mem s1 (nxt s) = Some (OBytes (bconst (256 * 200 * 4) 0))) by (unfold s1; cbn [mem]; apply upd_same).
    assert (M2 : mem s1 d = Some (OBytes b)).
    { unfold s1; cbn [mem]. rewrite upd_other; auto. pose proof (holds_lt s d _ Hwf Hd). lia. }
    rewrite (bindM_Ok _ _ _ _ _ (get_bytes_ok _ _ _ M1)).
    destruct (alpha_ok (bconst (256 * 200 * 4) 0)) as (o1 & A & L1 & O1); [reflexivity| |].
    { intros j Hj. simpl. unfold inb. replace ((0 <=? j) && (j <? 204800)) with true by lia. reflexivity. }
    revert A. generalize (alpha_loop (bconst (256 * 200 * 4) 0)). intros X ->. rewrite (bindM_lift _ _ _ o1 eq_refl).
    rewrite (bindM_Ok _ _ _ _ _ (get_bytes_ok _ _ _ M2)).
    destruct (hist_draw_ok (w * h) ch b o1) as (bars & o2 & D & L2 & O2 & B); auto.
    rewrite (bindM_lift _ _ _ _ D). rewrite (bindM_Ok _ _ _ _ _ (put_bytes_ok _ _ _ _ M1)).
    eexists _, _, _, _. split; [reflexivity|]. split.
    { split; [|unfold s1; cbn [orc tick nxt mem]; split; [reflexivity|split; lia]].
      intros i Hi'. unfold s1 in *. cbn [nxt mem] in *. rewrite !upd_other by lia. apply Hwf. lia. }
    split; [apply Hwf; lia|]. split.
    + exists o2. split; [cbn [mem]; apply upd_same|]. do 2 (split; [reflexivity|]). exists bars. split; [|exact B].
      apply hval_chart; auto.
    + intros j Hj. unfold s1. cbn [mem]. rewrite !upd_other by auto. reflexivity.
Qed.

Lemma returns_sized_weak s run (P Q : Z -> Z -> buf Z -> Prop) :
  (forall w h b, P w h b -> Q w h b) -> returns_sized s run P -> returns_sized s run Q.
Proof.
  intros H (p & w & h & s' & E & L & X). exists p, w, h, s'. do 2 (split; [assumption|]).
  destruct p; auto. destruct X as (X1 & (b & X2 & X3) & X4). split; auto. split; [exists b; auto|auto].
Qed.

Lemma level_count_nonneg b n ch c v : 0 <= n -> 0 <= level_count b n ch c v.
Proof. intros. apply count_range; auto. Qed.

Lemma hist_bars_exact b n ch bars : 0 < n -> 0 < ch ->
  (forall c v, 0 <= c < counted ch -> 0 <= v < 256 -> level_count b n ch c v <= 21474836) ->
  hist_bars_by (fun k => wrapped (k * 200)) (fun c v => wrapped (level_count b n ch c v)) (gray_picture b n ch) ch bars ->
  hist_bars b n ch bars.
Proof.
  intros Hn Hch Hc [H1 H2].
  assert (C0 : 0 < counted ch) by (unfold counted; destruct (3 <=? ch); lia).
  assert (E : forall c v, 0 <= c < counted ch -> 0 <= v < 256 -> wrapped (level_count b n ch c v) = level_count b n ch c v).
  { intros c v A B. specialize (Hc c v A B). pose proof (level_count_nonneg b n ch c v). apply Z.mod_small. lia. }
  assert (E2 : forall c v, 0 <= c < counted ch -> 0 <= v < 256 -> wrapped (wrapped (level_count b n ch c v) * 200) = level_count b n ch c v * 200).
  { intros c v A B. rewrite E by auto. specialize (Hc c v A B). pose proof (level_count_nonneg b n ch c v). apply Z.mod_small. lia. }
  split; intros G.
  - destruct (H1 G) as (m & M & B). exists m. split.
    + eapply largest_ext; [|exact M]. intros c v A ?. apply E; lia.
    + intros c x A X. rewrite (B c x A X). destruct (m =? 0); auto. rewrite E2 by lia. reflexivity.
  - destruct (H2 G) as (m & M & B). exists m. split.
    + eapply largest_ext; [|exact M]. intros c v A ?. apply E; lia.
    + intros c x A X. rewrite (B c x A X). destruct (m =? 0); auto. cbn [orb].
      destruct (Z.leb_spec (counted ch) c); auto. rewrite E2 by lia. reflexivity.
Qed.

Lemma histogram_ok w h ch s p b ow oh :
  wf s -> 0 < w -> 0 < h -> 0 < ch -> w * h * ch <= SIZE_MAX -> holds s p b -> image (w * h * ch) b ->
  (forall c v, 0 <= c < counted ch -> 0 <= v < 256 -> level_count b (w * h) ch c v <= 21474836) ->
  returns_sized s (generate_histogram w h ch p ow oh s) (fun w' h' b' => w' = 256 /\ h' = 200 /\
    exists bars, bar_chart bars b' /\ hist_bars b (w * h) ch bars).
Proof.
  intros. eapply returns_sized_weak; [|apply histogram_general; eauto].
  intros w' h' b' (-> & -> & bars & B1 & B2). do 2 (split; [reflexivity|]). exists bars. split; [exact B1|].
  apply hist_bars_exact; auto. nia.
Qed.

Lemma histogram_rejects w h ch s p ow oh : p = Null \/ w = 0 \/ h = 0 \/ ch = 0 ->
  generate_histogram w h ch p ow oh s = Ok (Null, ow, oh, s).
Proof.
  intros H. unfold generate_histogram. destruct p as [|d]; [reflexivity|].
  replace ((w =? 0) || (h =? 0) || (ch =? 0)) with true; [reflexivity|].
  destruct H as [?|[->|[->| ->]]]; [discriminate| | |]; rewrite ?Z.eqb_refl, ?orb_true_r; reflexivity.
Qed.

(** ** A uniform picture of 21474837 pixels has an empty histogram *)
Definition big_n : Z := 21474837.
Definition big_buf : buf Z := bconst big_n 7.
Lemma big_image : image (big_n * 1 * 1) big_buf.
Proof.
  split; [discriminate|]. intros i Hi. exists 7. split; [|unfold byte; lia]. simpl. unfold inb.
  change (big_n * 1 * 1) with big_n in Hi. replace ((0 <=? i) && (i <? big_n)) with true by lia. reflexivity.
Qed.
Lemma big_count v : level_count big_buf big_n 1 0 v = if v =? 7 then big_n else 0.
Proof.
  unfold level_count.
  assert (G : forall i, 0 <= i < big_n -> bget big_buf (i * 1 + 0) = Some 7).
  { intros i Hi. replace (i * 1 + 0) with i by lia. simpl. unfold inb. replace ((0 <=? i) && (i <? big_n)) with true by lia. reflexivity. }
  destruct (Z.eqb_spec v 7) as [->|N].
  - apply count_all; [discriminate|]. intros i Hi. rewrite G by auto. reflexivity.
  - apply count_none; [discriminate|]. intros i Hi. rewrite G by auto. lia.
Qed.
Local Opaque level_count.
Lemma big_histogram s p ow oh : wf s -> holds s p big_buf ->
  returns_sized s (generate_histogram big_n 1 1 p ow oh s) (fun w' h' b' => w' = 256 /\ h' = 200 /\
    forall x y c, inside 256 200 x y -> 0 <= c < 3 -> pix b' 256 4 x y c = Some 0).
Proof.
  intros Hwf Hp. eapply returns_sized_weak; [|apply (histogram_general big_n 1 1 s p big_buf); auto; try reflexivity; [discriminate|apply big_image]].
  intros w' h' b' (-> & -> & bars & [_ B] & [H _]). do 2 (split; [reflexivity|]). intros x y c I Hc.
  destruct (H (or_introl eq_refl)) as (m & [M1 M2] & Hb). rewrite (proj2 (B x y I) c Hc). rewrite Hb by (destruct I; lia).
  replace (big_n * 1) with big_n in * by reflexivity. rewrite (big_count x).
  assert (m = big_n).
  { assert (A : wrapped (level_count big_buf big_n 1 0 7) <= m) by (apply M1; lia). rewrite (big_count 7) in A. change (big_n <= m) in A.
    destruct M2 as (c' & v & Hc' & Hv & E). replace c' with 0 in E by lia. rewrite (big_count v) in E.
    destruct (v =? 7); [change (big_n = m) in E; lia|]. change (0 = m) in E. unfold big_n in *. lia. }
  subst m. change (big_n =? 0) with false. cbv iota. destruct I as [_ [_ I]].
  destruct (x =? 7); match goal with |- context [wrapped ?t / big_n] => let v := eval vm_compute in (wrapped t / big_n) in change (wrapped t / big_n) with v end;
    replace (200 - 0 <=? y) with false by lia; reflexivity.
Qed.

Lemma big_should bars : hist_bars big_buf big_n 1 bars -> forall c, 0 <= c < 3 -> bars c 7 = 200.
Proof.
  intros [H _] c Hc. destruct (H (or_introl eq_refl)) as (m & [M1 M2] & Hb). rewrite Hb by lia. rewrite (big_count 7).
  assert (m = big_n).
  { specialize (M1 0 7 ltac:(lia) ltac:(lia)). rewrite (big_count 7) in M1. change (big_n <= m) in M1.
    destruct M2 as (c' & v & Hc' & Hv & E). replace c' with 0 in E by lia. rewrite (big_count v) in E.
    destruct (v =? 7); [congruence|]. unfold big_n in *. lia. }
  subst m. reflexivity.
Qed.

Lemma histogram_overflow : exists n b, image (n * 1 * 1) b /\ 0 < n /\ n * 1 * 1 <= SIZE_MAX /\
  (forall bars, hist_bars b (n * 1) 1 bars -> forall c, 0 <= c < 3 -> bars c 7 = 200) /\
  forall s p ow oh, wf s -> holds s p b ->
  returns_sized s (generate_histogram n 1 1 p ow oh s) (fun w' h' b' => w' = 256 /\ h' = 200 /\
    forall x y c, inside 256 200 x y -> 0 <= c < 3 -> pix b' 256 4 x y c = Some 0).
Proof.
  exists big_n, big_buf. split; [apply big_image|]. split; [reflexivity|]. split; [discriminate|].
  split; [|intros; apply big_histogram; auto].
  intros bars. replace (big_n * 1) with big_n by reflexivity. apply big_should.
Qed.
