(** * P_Flat: the watershed of a flat landscape, round by round *)
From Verif Require Import Base BaseLemmas CountLemmas F Heap HeapLemmas Spec Spec_Morph Spec_Draw Spec_Watershed M_Watershed P_Cli P_Watershed.

Lemma grid_pigeon w h (l : list (Z * Z)) : 0 < w -> 0 < h -> NoDup l ->
  (forall p, In p l -> inside w h (fst p) (snd p)) -> Z.of_nat (length l) <= w * h.
Proof.
  intros Hw Hh ND HI.
  set (row := map Z.of_nat (seq 0 (Z.to_nat w))). set (col := map Z.of_nat (seq 0 (Z.to_nat h))).
  assert (HL : (length l <= length (list_prod row col))%nat).
  { apply NoDup_incl_length; auto. intros [x y] Hp. specialize (HI _ Hp). cbn [fst snd] in HI. unfold inside in HI.
    apply in_prod; apply in_map_iff.
    - exists (Z.to_nat x). split; [lia|]. apply in_seq. lia.
    - exists (Z.to_nat y). split; [lia|]. apply in_seq. lia. }
  rewrite prod_length in HL. unfold row, col in HL. rewrite !map_length, !seq_length in HL. nia.
Qed.

Lemma nodup_snoc {A} (l : list A) a : NoDup l -> ~ In a l -> NoDup (l ++ [a]).
Proof.
  induction l as [|b l IH]; intros ND NI; cbn [app].
  - constructor; [auto|constructor].
  - inversion ND; subst. constructor.
    + rewrite in_app_iff. intros [H|[H|[]]]; [tauto|]. apply NI. left. auto.
    + apply IH; auto. intros H. apply NI. right; auto.
Qed.

Section Rounds.
Variables (w h n : Z) (mk : buf (f64 * f64)) (gb : buf Z) (bnd : bool).
Hypothesis Hw : 0 < w. Hypothesis Hh : 0 < h. Hypothesis HN : w * h <= 2147483647.
Hypothesis Hmk : markers_ok w h mk n.
Hypothesis Hgb : image (w * h) gb.
Notation N := (w * h).
Notation lab := (lab w).
Notation full := (full w h n).
Notation cand := (cand w h gb bnd).
Notation good := (good w h n mk gb bnd).
Notation closed := (closed w h gb bnd).
Notation paint := (paint w).
Notation item_ok := (item_ok w h n).
Notation g := (g w gb).

(** The first direction looked at is the left one. *)
Lemma find_neighbor_left labels x y nl mult : full labels -> inside w h x y -> inside w h (x - 1) y ->
  lab labels (x - 1) y <> -1 -> find_neighbor w h labels x y = Ok (nl, mult) -> nl = lab labels (x - 1) y.
Proof.
  intros F Hi Hi' Hl. unfold find_neighbor.
  pose proof (w_range w h Hw Hh HN). pose proof (h_range w h Hw Hh HN).
  match goal with |- context[for_brk 0 4 ?f ?s] => set (body := f) end.
  assert (E0 : body 0 (-1) = Ok (inl (lab labels (x - 1) y))).
  { unfold body. destruct (nxd_s32 w h Hw Hh HN x y 0 Hi ltac:(lia)) as [E1 E2]. rewrite E1, E2.
    replace (nxd x 0) with (x - 1) by (unfold nxd; cbn; lia). replace (nyd y 0) with y by (unfold nyd; cbn; lia).
    unfold inside in Hi, Hi'. rewrite !s32_pos by lia.
    replace ((0 <=? x - 1) && (x - 1 <? w) && (0 <=? y) && (y <? h)) with true by lia.
    destruct (idx_ok w h Hw Hh HN (x - 1) y ltac:(unfold inside; lia)) as [-> _].
    destruct (lab_load w h n Hw Hh HN labels (x - 1) y F ltac:(unfold inside; lia)) as [-> _]. cbn [bind].
    replace (lab labels (x - 1) y =? -1) with false by lia. reflexivity. }
  rewrite for_brk_step by lia. rewrite E0. cbn [bind].
  destruct (for_brk_inv (fun _ k => k = lab labels (x - 1) y) (fun k => k = lab labels (x - 1) y) (0 + 1) 4 body
    (lab labels (x - 1) y)) as [(k & E & Ek)|(k & E & Ek)]; auto; try lia.
  - intros d k Hd Ek. unfold body. destruct (nxd_s32 w h Hw Hh HN x y d Hi ltac:(lia)) as [E1 E2]. rewrite E1, E2.
    rewrite !s32_pos by lia.
    destruct ((0 <=? nxd x d) && (nxd x d <? w) && (0 <=? nyd y d) && (nyd y d <? h)) eqn:EI; [|left; eauto].
    assert (Hi2 : inside w h (nxd x d) (nyd y d)) by (unfold inside; lia).
    destruct (idx_ok w h Hw Hh HN _ _ Hi2) as [-> _]. destruct (lab_load w h n Hw Hh HN labels _ _ F Hi2) as [-> _]. cbn [bind].
    destruct (_ =? -1); [left; eauto|]. replace (k =? -1) with false by lia.
    destruct (k =? _); [left|right]; eauto.
  - rewrite E. cbn [bind]. congruence.
  - rewrite E. cbn [bind]. congruence.
Qed.

(** A search that misses nothing: the queue never overflows. *)
Definition whole (level : Z) (labels : buf Z) (l0 : list item) (done : Z -> Z -> Prop) (s : queue * bool) : Prop :=
  exists E, qrep N (fst s) (l0 ++ E) /\
    (forall x y l, In (x, y, l) E <-> cand level labels (x, y, l) /\ done x y) /\
    NoDup (map fst E) /\ (snd s = true <-> E <> []).

Lemma whole_ext level labels l0 (D D' : Z -> Z -> Prop) s : (forall x y, inside w h x y -> (D x y <-> D' x y)) ->
  whole level labels l0 D s -> whole level labels l0 D' s.
Proof.
  intros HD (E & Q & F & ND & C). exists E. split; auto. split; auto.
  intros x y l. rewrite F. split; intros [H1 H2]; split; auto; apply (HD x y); auto; apply H1.
Qed.

Lemma whole_pixel level labels l0 (D : Z -> Z -> Prop) x y s : full labels -> inside w h x y -> ~ D x y ->
  NoDup (map fst l0) -> (forall u v l, In (u, v, l) l0 -> inside w h u v /\ lab labels u v <> -1) ->
  whole level labels l0 D s ->
  exists s', scan_pixel w h gb bnd level labels x y s = Ok s' /\
    whole level labels l0 (fun u v => D u v \/ (u = x /\ v = y)) s'.
Proof.
  intros Hf Hi HD ND0 H0 (E & Q & F & ND & C). destruct s as [q ch]. cbn [fst snd] in *.
  unfold scan_pixel. destruct (idx_ok w h Hw Hh HN x y Hi) as [-> B].
  destruct (lab_load w h n Hw Hh HN labels x y Hf Hi) as [-> Hlab]. cbn [bind].
  assert (SKIP : (forall l, ~ cand level labels (x, y, l)) -> whole level labels l0 (fun u v => D u v \/ (u = x /\ v = y)) (q, ch)).
  { intros HN'. exists E. cbn [fst snd]. split; auto. split; auto.
    intros u v l. rewrite F. split; [tauto|]. intros [H1 [H2|[-> ->]]]; auto. exfalso. exact (HN' l H1). }
  destruct (lab labels x y =? -1) eqn:E1; cbn [negb]; cbv iota.
  2:{ eexists; split; [reflexivity|]. apply SKIP. intros l (_ & C' & _). lia. }
  destruct (gray_load w h gb Hw Hh HN Hgb x y Hi) as [-> _]. cbn [bind].
  destruct (level <? g x y) eqn:E2.
  { eexists; split; [reflexivity|]. apply SKIP. intros l (_ & _ & C' & _). lia. }
  destruct (find_neighbor_ok w h n Hw Hh HN labels x y Hf Hi) as (nl & mult & EN & _). rewrite EN. cbn [bind].
  destruct (negb (nl =? -1) && (negb mult || negb bnd)) eqn:E3.
  2:{ eexists; split; [reflexivity|]. apply SKIP. intros l (_ & _ & _ & C' & m & Em & Hm). rewrite EN in Em. inversion Em; subst.
      destruct Hm as [Hm|Hm]; rewrite Hm in E3; destruct (l =? -1) eqn:?; cbn in E3; try lia; destruct m; discriminate. }
  pose proof Hi as [Hx Hy]. pose proof (w_range w h Hw Hh HN) as WR. pose proof (h_range w h Hw Hh HN) as HR.
  rewrite !s32_pos by lia.
  assert (CA : cand level labels (x, y, nl)).
  { split; [split; auto|]. split; [lia|]. split; [lia|]. split; [lia|]. exists mult. split; auto. destruct mult, bnd; auto.
    all: try (cbn in E3; rewrite andb_false_r in E3; discriminate). }
  assert (NE : ~ In (x, y) (map fst E)).
  { intros HI. apply in_map_iff in HI. destruct HI as ([[u v] l] & Eu & HI). cbn in Eu. inversion Eu; subst u v.
    apply F in HI. tauto. }
  assert (NDall : NoDup ((x, y) :: map fst (l0 ++ E))).
  { constructor.
    - rewrite map_app, in_app_iff. intros [HI|HI]; [|tauto].
      apply in_map_iff in HI. destruct HI as ([[u v] l] & Eu & HI). cbn in Eu. inversion Eu; subst u v.
      destruct (H0 _ _ _ HI) as [_ HX]. lia.
    - rewrite map_app. clear - ND0 ND F H0. revert ND0 H0. induction l0 as [|[[u v] l] l1 IH]; intros ND0 H0; [exact ND|].
      cbn [map fst app] in *. inversion ND0; subst. constructor.
      + rewrite in_app_iff. intros [HI|HI]; [tauto|]. apply in_map_iff in HI. destruct HI as ([[u' v'] l'] & Eu & HI). cbn in Eu. inversion Eu; subst u' v'.
        apply F in HI. destruct HI as [(_ & HI & _) _]. destruct (H0 u v l (or_introl eq_refl)) as [_ HX]. lia.
      + apply IH; auto. intros a b c HI. apply (H0 a b c). right; auto. }
  assert (LT : Z.of_nat (length (l0 ++ E)) < N).
  { pose proof (grid_pigeon w h _ Hw Hh NDall) as GP. cbn [length] in GP. rewrite map_length in GP.
    enough (Z.of_nat (S (length (l0 ++ E))) <= w * h) by lia. apply GP.
    intros p [<-|HI]; [exact Hi|]. apply in_map_iff in HI. destruct HI as ([[u v] l] & <- & HI). cbn [fst snd].
    apply in_app_iff in HI. destruct HI as [HI|HI]; [apply (H0 _ _ _ HI)|]. apply F in HI. apply HI. }
  destruct (enqueue_ok N (N_range w h Hw Hh HN) q _ x y nl Q LT) as (q' & -> & Q'). cbn [bind].
  eexists; split; [reflexivity|]. exists (E ++ [(x, y, nl)]). cbn [fst snd]. rewrite app_assoc.
  split; auto. split; [|split].
  - intros u v l. rewrite in_app_iff. rewrite F. cbn [In]. split.
    + intros [[H1 H2]|[H1|[]]]; [tauto|]. inversion H1; subst. tauto.
    + intros [H1 [H2|[-> ->]]]; [tauto|]. right; left. f_equal. eapply cand_det; eauto.
  - rewrite map_app. apply nodup_snoc; auto.
  - split; auto. intros _ C'. destruct E; discriminate.
Qed.

Lemma whole_scan level labels q l0 : full labels -> qrep N q l0 ->
  NoDup (map fst l0) -> (forall u v l, In (u, v, l) l0 -> inside w h u v /\ lab labels u v <> -1) ->
  exists s', scan w h gb bnd level labels q = Ok s' /\ whole level labels l0 (fun _ _ => True) s'.
Proof.
  intros Hf Q ND0 H0. unfold scan.
  destruct (for_inv (fun y s => whole level labels l0 (fun u v => v < y) s) 0 h
    (fun y st => for_ 0 w (fun x st => scan_pixel w h gb bnd level labels x y st) st) (q, false)) as (s' & E & H).
  - lia.
  - exists []. cbn [fst snd]. rewrite app_nil_r. split; auto. split; [|split].
    + intros x y l. split; [intros []|]. intros [[[_ H1] _] H2]. lia.
    + constructor.
    + split; congruence.
  - intros y s Hy Hs.
    destruct (for_inv (fun x s => whole level labels l0 (fun u v => v < y \/ (v = y /\ u < x)) s) 0 w
      (fun x st => scan_pixel w h gb bnd level labels x y st) s) as (s' & E & H).
    + lia.
    + eapply whole_ext; [|exact Hs]. intros u0 v0 [? ?]; split; cbn beta; intros; lia.
    + intros x s1 Hx Hs1.
      destruct (whole_pixel level labels l0 (fun u v => v < y \/ (v = y /\ u < x)) x y s1 Hf ltac:(unfold inside; lia) ltac:(cbv beta; intros [?|[? ?]]; lia) ND0 H0 Hs1) as (s2 & E2 & H2).
      exists s2. split; auto. eapply whole_ext; [|exact H2]. intros u0 v0 [? ?]; split; cbn beta; intros; lia.
    + exists s'. split; auto. eapply whole_ext; [|exact H]. intros u0 v0 [? ?]; split; cbn beta; intros; lia.
  - exists s'. split; auto. eapply whole_ext; [|exact H]. intros u0 v0 [? ?]; split; cbn beta; intros; lia.
Qed.

(** ** An invariant kept by whole rounds *)
Variable P : (Z -> Z -> Z) -> Prop.
Hypothesis Pext : forall L L', (forall x y, inside w h x y -> L x y = L' x y) -> P L -> P L'.
Hypothesis Pround : forall level labels E, 0 <= level -> full labels -> P (lab labels) -> E <> [] ->
  (forall x y l, In (x, y, l) E <-> cand level labels (x, y, l)) -> P (lab (paint E labels)).

Lemma round_items level labels E : full labels -> (forall x y l, In (x, y, l) E <-> cand level labels (x, y, l)) ->
  Forall (cand level labels) E.
Proof. intros F H. apply Forall_forall. intros [[x y] l] HI. apply H; auto. Qed.

Lemma level_rounds fuel level q labels : 0 <= level -> w * h + 1 < Z.of_nat fuel -> forall f, (Z.to_nat (unl w h labels) < f)%nat ->
  qrep N q [] -> good level labels -> P (lab labels) ->
  exists q' labels', while_ f (fun st =>
    let '(q, labels) := st in
    r <- scan w h gb bnd level labels q ;;
    let '(q, changed) := r in
    r <- drain fuel w q labels ;;
    if (changed : bool) then Ok (inl r) else Ok (inr r)) (q, labels) = Ok (q', labels') /\
    qrep N q' [] /\ good level labels' /\ closed level labels' /\ P (lab labels').
Proof.
  intros Hlv Hfuel f Hf Q G HP.
  match goal with |- context[while_ f ?b _] => set (body := b) end.
  destruct (while_inv (fun s => qrep N (fst s) [] /\ good level (snd s) /\ P (lab (snd s)))
    (fun s => qrep N (fst s) [] /\ good level (snd s) /\ closed level (snd s) /\ P (lab (snd s)))
    (fun s => Z.to_nat (unl w h (snd s))) body f (q, labels)) as ([q' labels'] & E & H); auto.
  - intros [q1 l1]. cbn [fst snd]. intros (Q1 & G1 & P1). unfold body.
    pose proof G1 as (F1 & _).
    destruct (whole_scan level l1 q1 [] F1 Q1) as ([q2 ch] & -> & E & Q2 & HC & ND & CH); [constructor|intros u v l []|].
    cbn [bind fst snd app] in *.
    assert (HE' : forall x y l, In (x, y, l) E <-> cand level l1 (x, y, l)) by (intros x y l; rewrite HC; tauto).
    pose proof (round_items _ _ _ F1 HE') as HE.
    assert (HI : Forall item_ok E) by (eapply Forall_impl; [|exact HE]; intros; eapply cand_item_ok; eauto).
    pose proof Q2 as (_ & _ & _ & Hlen & _).
    destruct (drain_ok w h n Hw Hh HN fuel E q2 l1 Q2 F1 HI) as (q3 & -> & Q3). { lia. }
    cbn [bind]. destruct ch.
    + left. eexists; split; [reflexivity|]. cbn [fst snd]. assert (NE : E <> []) by (apply CH; auto). split.
      * split; auto. split; [apply good_extend; auto|]. eapply Pround; eauto.
      * pose proof (unl_lt w h n gb bnd Hw Hh HN l1 E level F1 HE NE). pose proof (unl_range w h Hw Hh HN (paint E l1)). lia.
    + right. eexists; split; [reflexivity|]. cbn [fst snd].
      assert (E = []). { destruct E; auto. exfalso. assert (false = true) by (apply CH; discriminate). discriminate. }
      subst E. split; auto. split; auto. split; auto. intros x y l C'. apply HE' in C'. destruct C'.
  - exists q', labels'. split; auto.
Qed.

Hypothesis Hdistinct : NoDup (map fst (mitems mk n)).
Hypothesis Pstart : forall b0, full b0 -> (forall x y, inside w h x y -> lab b0 x y = -1) -> P (lab (paint (mitems mk n) b0)).

Lemma few_markers : n <= N.
Proof.
  pose proof (grid_pigeon w h _ Hw Hh Hdistinct) as GP. pose proof Hmk as [Hn _]. pose proof (mitems_length w h mk n ltac:(lia)) as ML. unfold item in ML. rewrite map_length, ML in GP. apply GP.
  intros p HI. apply in_map_iff in HI. destruct HI as (it & <- & HI). apply (mitems_In w h) in HI. destruct HI as (m & Hm & ->).
  apply (marker_inside w h n mk Hmk m Hm).
Qed.

Lemma level0_rounds fuel q b0 : w * h + 1 < Z.of_nat fuel -> full b0 -> (forall x y, inside w h x y -> lab b0 x y = -1) ->
  qrep N q (mitems mk (Z.min n N)) ->
  exists q' labels', flood_level fuel w h gb bnd 0 (q, paint (mitems mk n) b0) = Ok (q', labels') /\
    qrep N q' [] /\ good 1 labels' /\ P (lab labels').
Proof.
  intros Hfuel F0 H0 Q. pose proof (N_range w h Hw Hh HN) as HNr. pose proof few_markers as HnN.
  replace (Z.min n N) with n in Q by lia. pose proof Hmk as [Hn _].
  pose proof (sown_start w h n mk Hmk b0 F0 H0) as S1. pose proof (Pstart b0 F0 H0) as P1.
  set (L1 := paint (mitems mk n) b0) in *.
  pose proof (sown_good w h n mk gb bnd Hw Hh HN Hmk Hgb _ S1) as G1. pose proof G1 as (F1 & SD & _).
  unfold flood_level. destruct fuel as [|fuel']; [lia|]. cbn [while_]. set (fuel := S fuel') in *.
  destruct (whole_scan 0 L1 q _ F1 Q Hdistinct) as ([q2 ch] & -> & E & Q2 & HC & ND & CH).
  { intros u v l HI. apply (mitems_In w h) in HI. destruct HI as (m & Hm & E). unfold mitem in E. injection E as -> -> ->.
    split; [apply (marker_inside w h n mk Hmk m Hm)|]. apply (proj2 (proj2 S1)); auto. }
  cbn [bind fst snd] in *.
  assert (HE' : forall x y l, In (x, y, l) E <-> cand 0 L1 (x, y, l)) by (intros x y l; rewrite HC; tauto).
  pose proof (round_items _ _ _ F1 HE') as HE.
  assert (HI : Forall item_ok E) by (eapply Forall_impl; [|exact HE]; intros; eapply cand_item_ok; eauto).
  pose proof (mitems_ok w h n mk Hmk n ltac:(lia)) as HM.
  pose proof Q2 as (_ & _ & _ & Hlen & _).
  destruct (drain_ok w h n Hw Hh HN fuel _ q2 L1 Q2 F1 ltac:(apply Forall_app; auto)) as (q3 & -> & Q3). { lia. }
  cbn [bind]. rewrite paint_app.
  set (L2 := paint E (paint (mitems mk n) L1)).
  assert (FP : full (paint (mitems mk n) L1)) by (apply full_paint; auto).
  assert (EX : forall u v, inside w h u v -> lab L1 u v = lab (paint (mitems mk n) L1) u v).
  { intros u v Hi. symmetry. unfold L1. eapply repaint; eauto. }
  assert (EX2 : forall u v, inside w h u v -> lab (paint E L1) u v = lab L2 u v).
  { intros u v Hi. eapply paint_ext; eauto. }
  assert (F2 : full L2) by (apply full_paint; auto).
  assert (G2 : good 0 L2).
  { apply (good_ext w h n mk gb bnd Hw Hh HN Hmk 0 (paint E L1)); auto. apply good_extend; auto. }
  assert (UP : forall labels, good 0 labels -> closed 0 labels -> good 1 labels).
  { intros labels (F & S & C & O) HR. split; auto. split; auto. split.
    - intros x y Hi Hl. destruct (C x y Hi Hl) as [C1' C2']. split; auto. unfold rgn in *. eapply flows_mono; [|exact C2'].
      cbn; intros; lia.
    - intros HB. split; [apply O; auto|]. intros x y Hi Hl. replace (1 - 1) with 0 by lia. eapply closed_unreached; eauto. }
  destruct ch.
  - assert (NE : E <> []) by (apply CH; auto).
    assert (P2 : P (lab L2)). { eapply Pext; [exact EX2|]. apply (Pround 0 L1 E); auto. lia. }
    destruct (level_rounds fuel 0 q3 L2 ltac:(lia) Hfuel fuel') as (q' & labels' & EW & Q' & G' & CL' & P'); auto.
    { pose proof (unl_range w h Hw Hh HN L2). lia. }
    exists q', labels'. split; [exact EW|]. auto.
  - assert (E = []). { destruct E; auto. exfalso. assert (false = true) by (apply CH; discriminate). discriminate. }
    subst E. exists q3, L2. split; auto. split; auto. cbn [P_Watershed.paint fold_left] in EX2.
    split; [|eapply Pext; [exact EX2|auto]].
    apply (good_ext w h n mk gb bnd Hw Hh HN Hmk 1 L1); auto. apply UP; auto.
    intros x y l C'. apply HE' in C'. destruct C'.
Qed.

Lemma flood_rounds fuel q b0 : w * h + 1 < Z.of_nat fuel -> full b0 -> (forall x y, inside w h x y -> lab b0 x y = -1) ->
  qrep N q (mitems mk (Z.min n N)) ->
  exists q' labels', flood fuel w h gb bnd (q, paint (mitems mk n) b0) = Ok (q', labels') /\
    good 256 labels' /\ closed 255 labels' /\ P (lab labels').
Proof.
  intros Hfuel F0 H0 Q. unfold flood. rewrite for_step by lia.
  destruct (level0_rounds fuel q b0 Hfuel F0 H0 Q) as (q1 & l1 & -> & Q1 & G1 & P1). cbn [bind].
  match goal with |- context[for_ _ 256 ?f ?s] => set (body := f) end.
  destruct (for_inv (fun k s => qrep N (fst s) [] /\ good k (snd s) /\ (1 < k -> closed (k - 1) (snd s)) /\ P (lab (snd s))) 1 256 body (q1, l1))
    as ([q' l'] & E & Q' & G' & CL & P').
  - lia.
  - cbn [fst snd]. split; auto. split; auto. split; auto. intros; lia.
  - intros k [q2 l2] Hk. cbn [fst snd]. intros (Q2 & G2 & _ & P2). unfold body, flood_level.
    destruct (level_rounds fuel k q2 l2 ltac:(lia) Hfuel fuel) as (q' & l' & EW & Q' & G' & CL' & P'); auto.
    { pose proof (unl_range w h Hw Hh HN l2). lia. }
    exists (q', l'). split; auto. cbn [fst snd]. split; auto. split; [|split; [intros _; replace (k + 1 - 1) with k by lia; auto|auto]].
    destruct G' as (F & S & C & O). split; auto. split; auto. split.
    + intros x y Hi Hl. destruct (C x y Hi Hl) as [C1' C2']. split; auto. unfold rgn in *. eapply flows_mono; [|exact C2'].
      cbn; intros; lia.
    + intros HB. split; [apply O; auto|]. intros x y Hi Hl. replace (k + 1 - 1) with k by lia.
      eapply closed_unreached; eauto.
  - exists q', l'. cbn [fst snd] in *. split; auto. split; auto. split; auto. apply CL. lia.
Qed.
End Rounds.

(** ** Two markers on flat ground: the middle and the top-left corner *)
Section Flat.
Variables (w h cx cy : Z).
Definition near_b (x y : Z) : Z := x + y.
Definition near_c (x y : Z) : Z := Z.abs (x - cx) + Z.abs (y - cy).
(** After [k] rounds exactly the pixels at distance at most [k] are labelled; each got
    the label of the nearer marker, and in case of a tie the one of its left neighbour. *)
Definition rings (k : Z) (L : Z -> Z -> Z) : Prop := 0 <= k /\ forall x y, inside w h x y ->
  (L x y = -1 <-> k < near_b x y /\ k < near_c x y) /\
  (L x y <> -1 -> near_b x y < near_c x y -> L x y = 1) /\
  (L x y <> -1 -> near_c x y < near_b x y -> L x y = 0) /\
  (L x y <> -1 -> near_b x y = near_c x y -> 1 <= x <= cx -> L x y = 1).

Lemma rings_ext k L L' : (forall x y, inside w h x y -> L x y = L' x y) -> rings k L -> rings k L'.
Proof. intros E [Hk H]. split; auto. intros x y Hi. rewrite <- !E by auto. auto. Qed.

Lemma near_step x y u v : 0 <= x -> 0 <= y -> 0 <= u -> 0 <= v -> adjacent x y u v ->
  Z.abs (near_b x y - near_b u v) <= 1 /\ Z.abs (near_c x y - near_c u v) <= 1.
Proof. unfold adjacent, near_b, near_c. lia. Qed.
Lemma near_b_back x y : inside w h x y -> 0 < near_b x y -> exists u v, inside w h u v /\ adjacent x y u v /\ near_b u v = near_b x y - 1.
Proof.
  unfold inside, near_b, adjacent. intros Hi H. destruct (Z_lt_dec 0 x).
  - exists (x - 1), y. lia.
  - exists x, (y - 1). lia.
Qed.
Hypothesis Hc : inside w h cx cy.
Lemma near_c_back x y : inside w h x y -> 0 < near_c x y -> exists u v, inside w h u v /\ adjacent x y u v /\ near_c u v = near_c x y - 1.
Proof.
  unfold inside, near_c, adjacent in *. intros Hi H.
  destruct (Z_lt_dec x cx); [exists (x + 1), y; lia|]. destruct (Z_lt_dec cx x); [exists (x - 1), y; lia|].
  destruct (Z_lt_dec y cy); [exists x, (y + 1); lia|]. exists x, (y - 1). lia.
Qed.

Lemma rings_step k (L L' : Z -> Z -> Z) :
  (forall x y, inside w h x y -> -1 <= L x y) ->
  (forall x y, inside w h x y -> L x y <> -1 -> L' x y = L x y) ->
  (forall x y, inside w h x y -> L x y = -1 ->
     (L' x y = -1 /\ forall u v, inside w h u v -> adjacent x y u v -> L u v = -1) \/
     (exists u v, inside w h u v /\ adjacent x y u v /\ L u v <> -1 /\ L' x y = L u v /\
        (inside w h (x - 1) y -> L (x - 1) y <> -1 -> L' x y = L (x - 1) y))) ->
  rings k L -> rings (k + 1) L'.
Proof.
  intros HL HK HN [Hk H]. split; [lia|]. intros x y Hi. pose proof (H x y Hi) as (A & B1 & B2 & B3).
  destruct (Z.eq_dec (L x y) (-1)) as [E|E].
  - destruct (proj1 A E) as [K1 K2]. destruct (HN x y Hi E) as [[E' F]|(u & v & Hu & Ha & Hl & E' & HL')].
    + rewrite E'. split; [|split; [|split]]; try congruence. split; [intros _|auto].
      split.
      * destruct (Z_lt_dec (k + 1) (near_b x y)); auto. exfalso.
        destruct (near_b_back x y Hi ltac:(lia)) as (u & v & Hu & Ha & Hd). pose proof (H u v Hu) as (A' & _).
        pose proof (proj1 A' (F u v Hu Ha)) as KK. clear -KK Hd K1 K2 n; lia.
      * destruct (Z_lt_dec (k + 1) (near_c x y)); auto. exfalso.
        destruct (near_c_back x y Hi ltac:(lia)) as (u & v & Hu & Ha & Hd). pose proof (H u v Hu) as (A' & _).
        pose proof (proj1 A' (F u v Hu Ha)) as KK. clear -KK Hd K1 K2 n; lia.
    + pose proof (H u v Hu) as (A' & B1' & B2' & B3').
      destruct (near_step x y u v) as [D1 D2]; [clear -Hi; unfold inside in Hi; lia|clear -Hi; unfold inside in Hi; lia|clear -Hu; unfold inside in Hu; lia|clear -Hu; unfold inside in Hu; lia|exact Ha|].
      assert (HM : near_b u v <= k \/ near_c u v <= k).
      { destruct (Z_le_dec (near_b u v) k); auto. destruct (Z_le_dec (near_c u v) k); auto. exfalso. apply Hl. apply A'. lia. }
      split; [|split; [|split]].
      * rewrite E'. split; [intros C; congruence|]. intros [C1 C2]. exfalso. clear -C1 C2 D1 D2 HM. lia.
      * intros _ Hlt. rewrite E'. apply B1'; auto. clear -Hlt D1 D2 HM K1 K2. lia.
      * intros _ Hlt. rewrite E'. apply B2'; auto. clear -Hlt D1 D2 HM K1 K2. lia.
      * intros _ Heq Hx. assert (Hi' : inside w h (x - 1) y) by (clear -Hi Hx; unfold inside in *; lia).
        pose proof (H (x - 1) y Hi') as (A2 & B12 & _ & _).
        assert (N1 : near_b (x - 1) y = near_b x y - 1) by (clear; unfold near_b; lia).
        assert (N2 : near_c (x - 1) y = near_c x y + 1) by (clear -Hx; unfold near_c; lia).
        assert (NE : L (x - 1) y <> -1) by (intros C; apply A2 in C; clear -C N1 N2 HM D1 D2 Heq K1 K2; lia).
        rewrite (HL' Hi' NE). apply B12; auto. clear -N1 N2 Heq; lia.
  - rewrite (HK x y Hi E). split; [|split; [|split]]; auto.
    split; [intros C; congruence|]. intros [C1 C2]. apply A. clear -C1 C2; lia.
Qed.
End Flat.

Section FlatFlood.
Variables (w h : Z) (mk : buf (f64 * f64)) (gb : buf Z).
Hypothesis Hw : 0 < w. Hypothesis Hh : 0 < h. Hypothesis HN : w * h <= 2147483647.
Hypothesis Hmk : markers_ok w h mk 2.
Hypothesis Hgb : image (w * h) gb.
Hypothesis Hflat : forall x y, inside w h x y -> pixv gb w 1 x y 0 = 0.
Hypothesis M1 : mx mk 1 = 0 /\ my mk 1 = 0.
Hypothesis M0 : 0 < mx mk 0 /\ 0 < my mk 0.
Notation cx := (mx mk 0). Notation cy := (my mk 0).

Definition ringed (L : Z -> Z -> Z) : Prop := exists k, rings w h cx cy k L.

Lemma ringed_round level labels E : 0 <= level -> full w h 2 labels -> ringed (lab w labels) -> E <> [] ->
  (forall x y l, In (x, y, l) E <-> cand w h gb false level labels (x, y, l)) -> ringed (lab w (paint w E labels)).
Proof.
  intros Hl F [k HR] _ HE. exists (k + 1).
  assert (HC : Forall (cand w h gb false level labels) E) by (apply (round_items w h 2 gb false level labels E F); auto).
  assert (HI : Forall (item_ok w h 2) E) by (eapply Forall_impl; [|exact HC]; intros; eapply cand_item_ok; eauto).
  assert (Hc : inside w h cx cy) by (apply (marker_inside w h 2 mk Hmk 0); lia).
  apply (rings_step w h cx cy Hc k (lab w labels)); auto.
  - intros x y Hi. apply (lab_load w h 2 Hw Hh HN labels x y F Hi).
  - intros x y Hi Hne. destruct (lab_paint w h 2 E labels x y HI Hi) as [[H _]|H]; auto.
    apply HE in H. destruct H as (_ & H & _). lia.
  - intros x y Hi He. destruct (find_neighbor_ok w h 2 Hw Hh HN labels x y F Hi) as (nl & mult & EN & P1 & P2 & _).
    destruct (Z.eq_dec nl (-1)) as [Hn|Hn].
    + left. split; [|exact (P1 Hn)]. destruct (lab_paint w h 2 E labels x y HI Hi) as [[H _]|H]; [congruence|].
      exfalso. apply HE in H. destruct H as (_ & _ & _ & H1 & m & H2 & _). congruence.
    + right. destruct (P2 Hn) as (u & v & Hu & Ha & Hv). exists u, v. split; auto. split; auto. split; [congruence|].
      assert (EL : lab w (paint w E labels) x y = nl).
      { assert (CA : cand w h gb false level labels (x, y, nl)).
        { split; auto. split; auto. split; [unfold g; rewrite Hflat by auto; lia|]. split; auto. exists mult. auto. }
        destruct (lab_paint w h 2 E labels x y HI Hi) as [[_ H]|H].
        - exfalso. apply (H nl). apply HE. auto.
        - apply HE in H. eapply cand_det; eauto. }
      rewrite EL. split; auto. intros Hi' Hl'. eapply find_neighbor_left; eauto.
Qed.

Lemma two_items : mitems mk 2 = [(cx, cy, 0); (0, 0, 1)].
Proof.
  destruct M1 as [E1 E2]. transitivity [mitem mk 0; mitem mk 1]; [reflexivity|]. unfold mitem. rewrite E1, E2. reflexivity.
Qed.

Lemma ringed_start b0 : full w h 2 b0 -> (forall x y, inside w h x y -> lab w b0 x y = -1) ->
  ringed (lab w (paint w (mitems mk 2) b0)).
Proof.
  intros F H0. exists 0. split; [lia|].
  assert (Hc : inside w h cx cy) by (apply (marker_inside w h 2 mk Hmk 0); lia).
  intros x y Hi. rewrite two_items. unfold paint. cbn [fold_left].
  rewrite (lab_paint1 w h) by (auto; unfold inside; lia). rewrite (lab_paint1 w h) by auto. rewrite H0 by auto.
  unfold near_b, near_c, inside in *.
  destruct ((x =? 0) && (y =? 0)) eqn:E1.
  - split; [lia|]. split; [lia|]. split; lia.
  - destruct ((x =? cx) && (y =? cy)) eqn:E2.
    + split; [lia|]. split; [lia|]. split; lia.
    + split; [lia|]. split; [lia|]. split; lia.
Qed.

Lemma flat_watershed fuel s p q : wf s -> w * h <= 1073741824 -> w * h + 1 < Z.of_nat fuel ->
  holds s p gb -> holds_pts s q mk ->
  returns_fresh s (watershed fuel w h p q 2 false s) (fun b' => exists L,
    coloured w h L b' /\ (forall x y, inside w h x y -> 0 <= L x y < 2) /\ seeded 2 mk L /\
    forall x y, inside w h x y ->
      (near_b x y < near_c cx cy x y -> L x y = 1) /\
      (near_c cx cy x y < near_b x y -> L x y = 0) /\
      (near_b x y = near_c cx cy x y -> 1 <= x <= cx -> L x y = 1)).
Proof.
  intros Hwf HN' Hfuel Hp Hq. eapply watershed_core; eauto. intros q0 b0 F0 B0 Q0.
  destruct (flood_rounds w h 2 mk gb false Hw Hh HN Hmk Hgb ringed) with (fuel := fuel) (q := q0) (b0 := b0)
    as (q1 & lb & EF & G & CL & [k HR]); auto.
  - intros L L' E [k H]. exists k. eapply rings_ext; eauto.
  - exact ringed_round.
  - rewrite two_items. cbn. constructor; [|constructor; [auto|constructor]]. intros [C|[]]. injection C. lia.
  - exact ringed_start.
  - destruct (paint_labels_ok w h 2 lb Hw Hh HN' (proj1 G)) as (b' & EB & HC). exists q1, lb, b'. split; auto. split; auto.
    destruct G as (F & SD & _). exists (lab w lb). split; auto.
    assert (ALL : forall x y, inside w h x y -> lab w lb x y <> -1).
    { intros x y Hi Hl. apply (closed_unreached w h 2 mk gb false Hw Hh HN Hmk 255 lb eq_refl F SD CL x y Hi Hl).
      exists 0. split; [lia|]. eapply flows_mono; [|apply grid_connected; [|exact Hi]].
      - cbn. intros u v Hu _. unfold g. rewrite Hflat by auto. lia.
      - apply (marker_inside w h 2 mk Hmk 0); lia. }
    split; [|split; [auto|]].
    + intros x y Hi. pose proof (proj2 (lab_load w h 2 Hw Hh HN lb x y F Hi)). specialize (ALL x y Hi). lia.
    + intros x y Hi. destruct HR as [_ HR]. destruct (HR x y Hi) as (_ & R1 & R2 & R3). specialize (ALL x y Hi). auto.
Qed.
End FlatFlood.
