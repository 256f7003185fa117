(** * Proofs about [M_Color.v]: stretch, thresholds, hex colours, binary *)
From Verif Require Import Base BaseLemmas F Heap HeapLemmas Spec Spec_Color CountLemmas M_Color P_Color.

(** ** Histogram *)

Definition is_hist (n : Z) (f : Z -> Z) (hist : buf Z) : Prop :=
  blen hist = 256 /\ forall v, 0 <= v < 256 -> bget hist v = Some (count (fun i => f i =? v) n).

Lemma histogram_loop_ok n gv : 0 <= n < 4294967296 -> image n gv ->
  exists h, histogram_loop n gv = Ok h /\ is_hist n (val gv) h.
Proof.
  intros Hn Hi. unfold histogram_loop. rewrite for_u32_small by lia.
  destruct (for_inv (fun k h => blen h = 256 /\
     forall v, 0 <= v < 256 -> bget h v = Some (count (fun i => val gv i =? v) k)) 0 n
     (fun i hist => v <- load gv i ;; n <- load hist v ;; store hist v (u32 (n + 1))) (bconst 256 0))
    as [h [E H]]; [lia| | |exists h; split; auto].
  - split; [reflexivity|]. intros; rewrite count_0; reflexivity.
  - intros i h Hi' [L G]. destruct (image_val n gv i Hi) as [_ B]; [lia|]. unfold byte in B.
    rewrite (image_load n) by (auto; lia). simpl bind.
    rewrite (load_ok _ _ (count (fun i0 => val gv i0 =? val gv i) i)) by (try lia; apply G; lia).
    simpl bind. rewrite store_ok by lia.
    pose proof (count_range (fun i0 => val gv i0 =? val gv i) i).
    rewrite u32_small by lia.
    eexists; split; [reflexivity|]. split; [exact L|].
    intros v Hv. rewrite bget_bset. rewrite count_succ by lia.
    destruct (Z.eqb_spec v (val gv i)) as [->|Hne].
    + rewrite Z.eqb_refl. reflexivity.
    + destruct (Z.eqb_spec (val gv i) v); [congruence|]. rewrite G by auto. f_equal; lia.
Qed.

Lemma find_min_ok n f hist k : 0 <= k < n -> n < 4294967296 ->
  (forall i, 0 <= i < n -> byte (f i)) -> is_hist n f hist ->
  exists lo, find_min hist k = Ok lo /\ 0 <= lo < 256 /\
    k < count (fun i => f i <=? lo) n /\ count (fun i => f i <? lo) n <= k.
Proof.
  intros Hk Hn Hf [L G]. unfold find_min.
  set (body := fun i cum => _).
  destruct (for_brk_inv (S := Z) (R := Z) (fun i cum => cum = count (fun j => f j <? i) n /\ cum <= k)
    (fun lo => 0 <= lo < 256 /\ k < count (fun i => f i <=? lo) n /\ count (fun i => f i <? lo) n <= k)
    0 256 body 0) as [[c [E [H1 H2]]]|[lo [E [H1 [H2 H3]]]]].
  - lia.
  - split; [|lia]. symmetry. apply count_none; [lia|]. intros i Hi. specialize (Hf i Hi). unfold byte in Hf. lia.
  - intros i cum Hi [-> Hc]. unfold body.
    rewrite (load_ok _ _ (count (fun j => f j =? i) n)) by (try lia; apply G; lia). simpl bind.
    assert (S1 : count (fun j => f j <=? i) n = count (fun j => f j <? i) n + count (fun j => f j =? i) n).
    { apply count_split; [lia|]. intros j Hj.
      destruct (Z.leb_spec (f j) i), (Z.ltb_spec (f j) i), (Z.eqb_spec (f j) i); lia. }
    assert (S2 : count (fun j => f j <? i + 1) n = count (fun j => f j <=? i) n).
    { apply count_ext. intros j Hj. lia. }
    pose proof (count_range (fun j => f j <=? i) n).
    pose proof (count_range (fun j => f j <? i) n). pose proof (count_range (fun j => f j =? i) n).
    rewrite <- S1. rewrite u32_small by lia.
    destruct (Z.ltb_spec k (count (fun j => f j <=? i) n)).
    + right. exists i; split; auto.
    + left. eexists; split; [reflexivity|]. rewrite S2. split; auto.
  - exfalso. assert (count (fun j => f j <? 256) n = n).
    { apply count_all; [lia|]. intros i Hi. specialize (Hf i Hi). unfold byte in Hf. lia. }
    lia.
  - rewrite E. simpl bind. exists lo. rewrite u8_small by lia. repeat split; auto; lia.
Qed.

Lemma find_max_ok n f hist k : 0 <= k < n -> n < 4294967296 ->
  (forall i, 0 <= i < n -> byte (f i)) -> is_hist n f hist ->
  exists hi, find_max hist k = Ok hi /\ 0 <= hi < 256 /\
    k < count (fun i => hi <=? f i) n /\ count (fun i => hi <? f i) n <= k.
Proof.
  intros Hk Hn Hf [L G]. unfold find_max.
  set (body := fun i cum => _).
  destruct (for_brk_inv (S := Z) (R := Z) (fun j cum => cum = count (fun i => 255 - j <? f i) n /\ cum <= k)
    (fun hi => 0 <= hi < 256 /\ k < count (fun i => hi <=? f i) n /\ count (fun i => hi <? f i) n <= k)
    0 256 body 0) as [[c [E [H1 H2]]]|[lo [E [H1 [H2 H3]]]]].
  - lia.
  - split; [|lia]. symmetry. apply count_none; [lia|]. intros i Hi. specialize (Hf i Hi). unfold byte in Hf. lia.
  - intros j cum Hj [-> Hc]. unfold body. set (i := 255 - j) in *.
    rewrite (load_ok _ _ (count (fun j => f j =? i) n)) by (try lia; apply G; lia). simpl bind.
    assert (S1 : count (fun j => i <=? f j) n = count (fun j => i <? f j) n + count (fun j => f j =? i) n).
    { apply count_split; [lia|]. intros a Ha.
      destruct (Z.leb_spec i (f a)), (Z.ltb_spec i (f a)), (Z.eqb_spec (f a) i); lia. }
    assert (S2 : count (fun a => 255 - (j + 1) <? f a) n = count (fun a => i <=? f a) n).
    { apply count_ext. intros a Ha. lia. }
    pose proof (count_range (fun j => i <=? f j) n).
    pose proof (count_range (fun j => i <? f j) n). pose proof (count_range (fun j => f j =? i) n).
    rewrite <- S1. rewrite u32_small by lia.
    destruct (Z.ltb_spec k (count (fun j => i <=? f j) n)).
    + right. exists i; split; [reflexivity|]. split; [lia|auto].
    + left. eexists; split; [reflexivity|]. rewrite S2. split; auto.
  - exfalso. assert (count (fun j => 255 - 256 <? f j) n = n).
    { apply count_all; [lia|]. intros i Hi. specialize (Hf i Hi). unfold byte in Hf. lia. }
    lia.
  - rewrite E. simpl bind. exists lo. rewrite u8_small by lia. repeat split; auto; lia.
Qed.

(** ** Contrast stretch *)

Lemma stretch_map_byte lo hi g : lo <= hi -> byte g -> byte (stretch_map lo hi g).
Proof.
  unfold byte, stretch_map; intros.
  destruct (Z.eqb_spec lo hi); [lia|]. destruct (Z.ltb_spec g lo); [lia|]. destruct (Z.ltb_spec hi g); [lia|].
  split; [apply Z.div_pos; nia|]. apply Z.div_lt_upper_bound; nia.
Qed.

Lemma stretch_map_mono lo hi g g' : lo <= hi -> byte g -> byte g' -> g <= g' ->
  stretch_map lo hi g <= stretch_map lo hi g'.
Proof.
  intros H Hg Hg' Hle.
  pose proof (stretch_map_byte lo hi g H Hg) as B. pose proof (stretch_map_byte lo hi g' H Hg') as B'.
  unfold byte, stretch_map in *.
  destruct (Z.eqb_spec lo hi); [lia|].
  destruct (Z.ltb_spec g lo); destruct (Z.ltb_spec g' lo); destruct (Z.ltb_spec hi g); destruct (Z.ltb_spec hi g'); try lia.
  apply Z.div_le_mono; nia.
Qed.

Lemma stretch_px_ok lo hi g : 0 <= lo -> lo <= hi < 256 -> byte g ->
  stretch_px lo hi (u8 (hi - lo)) g = Ok (stretch_map lo hi g).
Proof.
  intros Hlo Hhi Hg. pose proof (stretch_map_byte lo hi g (proj1 Hhi) Hg) as B.
  unfold stretch_px, stretch_map, byte in *. rewrite u8_small by lia.
  destruct (Z.eqb_spec (hi - lo) 0); destruct (Z.eqb_spec lo hi); try lia; auto.
  destruct (Z.ltb_spec g lo); auto. destruct (Z.ltb_spec hi g); auto.
  rewrite Z.quot_div_nonneg by nia. rewrite u8_small; auto.
Qed.

Lemma stretch_gray_loop_ok n src : 0 <= n -> n * 4 <= 4294967296 -> image (n * 4) src ->
  exists b, stretch_gray_loop n src (bnew n) = Ok b /\ blen b = n /\
    forall i, 0 <= i < n -> bget b i = Some (lum src i).
Proof.
  intros Hn HS Hi. unfold stretch_gray_loop. rewrite for_u32_small by lia.
  destruct (loop1d_writes n 1 n (fun i => i) (fun i c => Some (lum src i))
    (fun i gv => gray <- get_gray32 src (u32 (i * 4)) ;; store gv i gray) (bnew n)) as [b [E [L G]]]; try lia; auto.
  - intros i Hi' b Hb. rewrite (u32_small (i * 4)) by lia.
    rewrite (get_gray32_ok n) by (auto; lia). simpl bind.
    rewrite store_ok by lia. eexists; split; [reflexivity|]. split; [exact Hb|].
    intros j. rewrite bget_bset.
    destruct (Z.eqb_spec j i); [subst|];
      [replace ((i <=? i) && (i <? i + 1)) with true by lia
      |replace ((i <=? j) && (j <? i + 1)) with false by lia]; reflexivity.
  - exists b; split; auto. split; auto. intros i Hi'. specialize (G i 0 Hi').
    rewrite Z.add_0_r in G. apply G; lia.
Qed.

Lemma stretch_out_loop_ok n lo hi src : 0 <= n -> n * 4 <= 4294967296 -> image (n * 4) src ->
  0 <= lo -> lo <= hi < 256 ->
  exists b, stretch_out_loop n lo hi (u8 (hi - lo)) src (bnew (n * 4)) = Ok b /\
    grays n (fun i => stretch_map lo hi (lum src i)) b.
Proof.
  intros Hn HS Hi Hlo Hhi. unfold stretch_out_loop.
  destruct (loop1d_writes (n * 4) 4 n (fun i => i * 4)
     (fun i c => Some (if c =? 3 then 255 else stretch_map lo hi (lum src i)))
     (fun i dst => let rgba_index := u32 (i * 4) in
        gray <- get_gray32 src rgba_index ;;
        gray <- stretch_px lo hi (u8 (hi - lo)) gray ;; put_gray32 dst rgba_index gray)
     (bnew (n * 4))) as [b [E [L G]]]; try lia; auto.
  - intros i Hi' b Hb. cbv zeta. rewrite (u32_small (i * 4)) by lia.
    rewrite (get_gray32_ok n) by (auto; lia). simpl bind.
    rewrite stretch_px_ok by (try lia; eapply lum_byte; eauto). simpl bind.
    destruct (put_gray32_ok b (i * 4) (stretch_map lo hi (lum src i))) as [b' [E' [L' G']]]; try lia.
    exists b'; split; [auto|]. split; [lia|exact G'].
  - exists b; split; auto. split; auto.
Qed.

Lemma shiftr6 n : Z.shiftr n 6 = n / 64.
Proof. rewrite Z.shiftr_div_pow2 by lia. reflexivity. Qed.

Lemma grayscale_stretch_ok : forall w h s p b,
  wf s -> dims_ok w h -> w * h <= 1073741824 -> holds s p b -> image (w * h * 4) b ->
  returns_fresh s (grayscale_stretch w h p s) (fun b' =>
    exact_image (w * h * 4) b' /\
    exists lo hi, 0 <= lo <= hi /\ hi <= 255 /\
      (w * h / 64 < count_px w h (fun x y => gray_at b w x y <=? lo) /\
       count_px w h (fun x y => gray_at b w x y <? lo) <= w * h / 64) /\
      (w * h / 64 < count_px w h (fun x y => hi <=? gray_at b w x y) /\
       count_px w h (fun x y => hi <? gray_at b w x y) <= w * h / 64) /\
      forall x y, 0 <= x < w -> 0 <= y < h ->
        opaque_gray b' w x y (stretch_map lo hi (gray_at b w x y))).
Proof.
  intros w h s p b Hwf D Hn [d [-> Hd]] Hi.
  pose proof D as (D1 & D2 & D3 & D4 & D5). unfold is_u32, SIZE_MAX in *.
  set (n := w * h) in *. assert (Hn0 : 1 <= n) by nia.
  destruct (stretch_gray_loop_ok n b) as [gv [Eg [Lg Gg]]]; auto; try lia.
  assert (Hgv : forall i, 0 <= i < n -> val gv i = lum b i) by (intros i Hi'; unfold val; now rewrite Gg).
  assert (Igv : image n gv).
  { split; [lia|]. intros i Hi'. rewrite Gg by auto. eexists; split; eauto. eapply lum_byte; eauto. }
  destruct (histogram_loop_ok n gv) as [hist [Eh Hh]]; auto; try lia.
  assert (Hh' : is_hist n (lum b) hist).
  { destruct Hh as [L G]. split; auto. intros v Hv. rewrite G by auto. f_equal. apply count_ext.
    intros i Hi'. now rewrite Hgv. }
  assert (Hk : 0 <= n / 64 < n) by (split; [apply Z.div_pos; lia|apply Z.div_lt; lia]).
  assert (Hb : forall i, 0 <= i < n -> byte (lum b i)) by (intros; eapply lum_byte; eauto).
  destruct (find_min_ok n (lum b) hist (n / 64)) as (lo & Elo & Blo & Clo1 & Clo2); auto; try lia.
  destruct (find_max_ok n (lum b) hist (n / 64)) as (hi & Ehi & Bhi & Chi1 & Chi2); auto; try lia.
  assert (lo <= hi).
  { destruct (Z.le_gt_cases lo hi) as [|Hgt]; auto. exfalso.
    assert (count (fun i => lum b i <=? hi) n <= count (fun i => lum b i <? lo) n).
    { apply count_le; [lia|]. intros; lia. }
    assert (count (fun _ => true) n = count (fun i => lum b i <=? hi) n + count (fun i => hi <? lum b i) n).
    { apply count_split; [lia|]. intros i _. destruct (Z.leb_spec (lum b i) hi), (Z.ltb_spec hi (lum b i)); lia. }
    rewrite count_all in H0 by (auto; lia).
    pose proof (Z.mul_div_le n 64). lia. }
  destruct (stretch_out_loop_ok n lo hi b) as [out [Eo Go]]; auto; try lia.
  assert (CP : forall Q, count_px w h (fun x y => Q (gray_at b w x y)) = count (fun i => Q (lum b i)) n).
  { intros Q. unfold count_px. apply count_ext. intros i Hi'. rewrite <- lum_gray_at.
    destruct (rm_decomp w h i) as (_ & _ & <-); auto; lia. }
  (* heap *)
  unfold grayscale_stretch. change (is_null (Ptr d)) with false.
  replace (w =? 0) with false by lia. replace (h =? 0) with false by lia. cbn [orb]. cbv iota.
  assert (SIZE_MAX / h <? w = false) as ->.
  { unfold SIZE_MAX; apply Z.ltb_ge. apply Z.div_le_lower_bound; nia. }
  cbv zeta. fold n. assert (u64 n = n) as -> by (apply u64_small; lia).
  replace (SIZE_MAX / 4 <? n) with false
    by (change (SIZE_MAX / 4) with 4611686018427387903; lia).
  rewrite (u64_small (n * 4)) by lia. rewrite shiftr6. rewrite (u32_small (n / 64)) by lia.
  assert (Hlt : d < nxt s) by (eapply holds_lt; eauto).
  unfold malloc_bytes. halloc E1 O1; [exact Hwf| |].
  { eexists Null, _. split; [reflexivity|]. split; [later_tac Hwf|]. split; [mem_same Hwf|].
    exists (tick s); split; auto; cbn; lia. }
  halloc E2 O2; [wf_tac Hwf| |].
  { hfree. eexists Null, _. split; [reflexivity|]. split; [later_tac Hwf|]. split; [mem_same Hwf|].
    exists (S (tick s)); split; auto; cbn; lia. }
  hget. hget. hlift Eg. hput. hlift Eh. hlift Elo. hlift Ehi. hfree. hget. hlift Eo. hput.
  eexists _, _. split; [reflexivity|]. cbn beta iota. split; [later_tac Hwf|].
  split; [apply Hwf; lia|]. split; [|mem_same Hwf].
  eexists; split; [mem_lookup|]. split.
  - apply grays_exact in Go; auto. intros i Hi'. apply stretch_map_byte; auto.
  - exists lo, hi. rewrite (CP (fun g => g <=? lo)), (CP (fun g => g <? lo)), (CP (fun g => hi <=? g)), (CP (fun g => hi <? g)).
    split; [lia|]. split; [lia|]. split; [auto|]. split; [auto|].
    intros x y Hx Hy. rewrite <- lum_gray_at.
    apply (grays_opaque w h (fun i => stretch_map lo hi (lum b i))); auto.
Qed.
