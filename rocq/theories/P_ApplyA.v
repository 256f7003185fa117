(** * P_ApplyA: the operations of the command line, one by one *)
From Coq Require Import Reals String.
From Verif Require Import Base BaseLemmas F Heap HeapLemmas Spec Spec_Draw Spec_Cli Spec_Resize Spec_Sobel Spec_Hist
  Spec_Blur Spec_Smart Spec_Watershed Spec_Parse Spec_Trim Spec_Color
  M_Color P_Color P_Color2 P_Color3 M_Geom P_Geom M_Blur P_Blur M_Resize P_Resize M_Otsu P_Otsu Spec_Otsu P_Otsu3 M_Smart P_Smart
  M_Draw P_Draw P_Border P_Draw2 M_Sobel P_Sobel M_Watershed P_Watershed M_Trim P_Trim M_Hist P_Hist M_Morph P_Morph
  M_Parse P_Parse M_Cli P_Cli M_Apply Spec_Morph Spec_Apply.
Local Open Scope string_scope.
Local Open Scope list_scope.
Local Open Scope Z_scope.

(** ** Outcomes *)
Definition outcome := Spec_Trim.returns_sized.

Lemma outcome_weaken s r (P Q : Z -> Z -> buf Z -> Prop) :
  outcome s r P -> (forall w h b, P w h b -> Q w h b) -> outcome s r Q.
Proof.
  intros (p & w' & h' & s' & E & L & H) K. exists p, w', h', s'. split; [exact E|]. split; [exact L|].
  destruct p as [|i]; [exact H|]. destruct H as (A & (b & B & C) & D). split; [exact A|]. split; [|exact D]. exists b; auto.
Qed.

Lemma outcome_unsized s w h (m : M ptr) (P : buf Z -> Prop) :
  returns_fresh s (m s) P -> outcome s (unsized w h m s) (fun w' h' b => w' = w /\ h' = h /\ P b).
Proof.
  intros (p & s' & E & L & H). unfold unsized. rewrite (bindM_Ok _ _ _ _ _ E). exists p, w, h, s'.
  split; [reflexivity|]. split; [exact L|]. destruct p as [|i]; [exact H|].
  destruct H as (A & (b & B & C) & D). split; [exact A|]. split; [|exact D]. exists b; auto.
Qed.

Lemma outcome_pic s w h r P : returns_pic s w h r P -> outcome s r P.
Proof.
  intros (p & w' & h' & s' & E & L & H). exists p, w', h', s'. split; [exact E|]. split; [exact L|].
  destruct p as [|i]; [tauto|exact H].
Qed.

(** Sizes reported by a library function. *)
Lemma outcome_sized s w h (m : M (ptr * Z * Z)) (P : Z -> Z -> buf Z -> Prop) :
  outcome s (m s) P -> (forall w' h' b, P w' h' b -> 0 < w' <= 2147483647 /\ 0 < h' <= 2147483647) ->
  outcome s ((r <-- m ;; ret (sized w h r)) s) P.
Proof.
  intros (p & w' & h' & s' & E & L & H) K. rewrite (bindM_Ok _ _ _ _ _ E). destruct p as [|i].
  - exists Null, w, h, s'. split; [reflexivity|]. split; auto.
  - destruct H as (A & (b & B & C) & D). destruct (K _ _ _ C). cbn [sized is_null]. rewrite !s32_cli by auto.
    exists (Ptr i), w', h', s'. split; [reflexivity|]. split; [exact L|]. split; [exact A|]. split; [|exact D]. exists b; auto.
Qed.

Lemma outcome_resize s r ow oh P : Spec_Resize.returns_sized s r ow oh P ->
  outcome s r (fun w' h' b => w' = ow /\ h' = oh /\ P b).
Proof.
  intros (p & s' & E & L & H). exists p, ow, oh, s'. split; [exact E|]. split; [exact L|].
  destruct p as [|i]; [exact H|]. destruct H as (A & (b & B & C) & D). split; [exact A|]. split; [|exact D]. exists b; auto.
Qed.

(** ** Temporary blocks *)
(** [s1] is [s] plus the live block [t]. *)
Definition plus (s s1 : st) (t : Z) : Prop :=
  later s s1 /\ mem s t = None /\ (exists o, mem s1 t = Some o) /\ forall j, j <> t -> mem s1 j = mem s j.

Lemma alloc_plus s o : wf s -> orc s (tick s) = true ->
  exists s1, alloc o s = Ok (Ptr (nxt s), s1) /\ plus s s1 (nxt s) /\ mem s1 (nxt s) = Some o /\ tick s1 = S (tick s).
Proof.
  intros Hwf E. unfold alloc. rewrite E.
  exists (mkst (upd (mem s) (nxt s) (Some o)) (nxt s + 1) (orc s) (S (tick s))). split; [reflexivity|].
  split; [|split; [apply upd_same|reflexivity]].
  split; [later_tac Hwf|]. split; [apply Hwf; lia|]. split; [exists o; apply upd_same|].
  intros j Hj. apply upd_other; auto.
Qed.

Lemma plus_holds s s1 t p b : plus s s1 t -> holds s p b -> holds s1 p b.
Proof.
  intros (_ & N & _ & D) (i & -> & Hi). exists i. split; [reflexivity|]. rewrite D; [exact Hi|congruence].
Qed.

Lemma plus_wf s s1 t : plus s s1 t -> wf s1.
Proof. intros (L & _). apply L. Qed.

Lemma free_plus s s1 t : plus s s1 t ->
  exists s2, free (Ptr t) s1 = Ok (tt, s2) /\ later s s2 /\ same_mem s s2 /\ tick s2 = tick s1.
Proof.
  intros (L & N & (o & E) & D). exists (mkst (upd (mem s1) t None) (nxt s1) (orc s1) (tick s1)).
  split; [eapply free_ok; eauto|]. split; [apply later_upd; exact L|]. split; [|reflexivity].
  intros j. cbn [mem]. unfold upd. destruct (Z.eqb_spec j t) as [->|]; auto.
Qed.

Lemma outcome_after s s1 r P : later s s1 -> same_mem s s1 -> outcome s1 r P -> outcome s r P.
Proof.
  intros L S (p & w' & h' & s' & E & L' & H). exists p, w', h', s'. split; [exact E|].
  split; [eapply later_trans; eauto|]. destruct L as (W & O & T & N). destruct p as [|i].
  - destruct H as [A (n & Hn & Fn)]. split; [intros j; rewrite A; apply S|]. exists n. rewrite <- O. split; [lia|auto].
  - destruct H as (A & B & D). split; [rewrite <- S; auto|]. split; [exact B|]. intros j Hj. rewrite D by auto. apply S.
Qed.

(** A temporary block, released at the end. *)
Lemma bracket s s1 t (body : M (ptr * Z * Z)) P : plus s s1 t -> outcome s1 (body s1) P ->
  outcome s ((r <-- body ;; _ <-- free (Ptr t) ;; ret r) s1) P.
Proof.
  intros (L & N & (o & Eo) & D) (p & w' & h' & s' & E & L' & H). rewrite (bindM_Ok _ _ _ _ _ E).
  assert (T : mem s' t = Some o).
  { destruct p as [|i]; [destruct H as [A _]; rewrite A; exact Eo|]. destruct H as (A & _ & C). rewrite C; [exact Eo|congruence]. }
  rewrite (bindM_Ok _ _ _ _ _ (free_ok _ _ _ T)).
  exists p, w', h', (mkst (upd (mem s') t None) (nxt s') (orc s') (tick s')). split; [reflexivity|].
  split; [apply later_upd; eapply later_trans; eauto|].
  destruct p as [|i].
  - destruct H as [A (n & Hn & Fn)]. destruct L as (W & O & Tk & Nx). split.
    + intros j. cbn [mem]. unfold upd. destruct (Z.eqb_spec j t) as [->|]; [auto|]. rewrite A. auto.
    + exists n. cbn [tick]. split; [lia|congruence].
  - destruct H as (A & (b & B & C) & F). assert (i <> t) by congruence.
    split; [rewrite <- D by auto; exact A|]. split.
    + exists b. split; [cbn [mem]; rewrite upd_other by auto; exact B|exact C].
    + intros j Hj. cbn [mem]. unfold upd. destruct (Z.eqb_spec j t) as [->|]; [auto|]. rewrite F by auto. auto.
Qed.

Lemma outcome_null s w h P : wf s -> alloc_failed s s -> outcome s (ret (Null, w, h) s) P.
Proof. intros Hwf A. exists Null, w, h, s. split; [reflexivity|]. split; [apply later_refl; auto|]. split; [apply same_mem_refl|exact A]. Qed.

(** An intermediate picture, then the rest. *)
Lemma outcome_fresh s (m : M ptr) (k : ptr -> M (ptr * Z * Z)) P Q w h :
  returns_fresh s (m s) P -> (forall s1, k Null s1 = Ok (Null, w, h, s1)) ->
  (forall s1 q b, plus s s1 q -> mem s1 q = Some (OBytes b) -> P b -> outcome s (k (Ptr q) s1) Q) ->
  outcome s ((p <-- m ;; k p) s) Q.
Proof.
  intros (p & s1 & E & L & H) K0 K. rewrite (bindM_Ok _ _ _ _ _ E). destruct p as [|q].
  - rewrite K0. exists Null, w, h, s1. split; [reflexivity|]. split; auto.
  - destruct H as (A & (b & B & C) & D). apply K with (b := b); auto. split; [exact L|]. split; [exact A|]. split; [exists (OBytes b); exact B|exact D].
Qed.

(** ** Names *)
Lemma usual_dims w h : usual w h -> dims_ok w h.
Proof. unfold usual, dims_ok, is_u32, SIZE_MAX. intros (A & B & C). assert (w <= w * h) by nia. assert (h <= w * h) by nia. lia. Qed.
Lemma usual_each w h : usual w h -> 0 < w <= 1073741824 /\ 0 < h <= 1073741824.
Proof. unfold usual. intros (A & B & C). assert (w <= w * h) by nia. assert (h <= w * h) by nia. lia. Qed.
Lemma usual_cli w h : usual w h -> cli_dims w h.
Proof. intros U. pose proof (usual_each _ _ U). destruct U as (A & B & C). unfold cli_dims, SIZE_MAX. lia. Qed.

Section Ops.
Variables (atof : cstr -> f64) (exp : f64 -> f64) (atan2 : f64 -> f64 -> f64) (asin pow2 : f64 -> f64).
Variables (fuel : nat) (identity : ptr).
Hypothesis Hexp : exp_ok exp.
Hypothesis Hfuel : 1073741825 < Z.of_nat fuel.
Let apply_op := apply_operation atof exp atan2 asin pow2 fuel identity.

Definition post (o : pipeline_op) (w h : Z) (b : buf Z) (w' h' : Z) (b' : buf Z) : Prop :=
  usual w' h' /\ exact_image (w' * h' * 4) b' /\ effect atof o w h b w' h' b'.

Variables (o : pipeline_op) (w h : Z) (s : st) (p : ptr) (b : buf Z).
Hypothesis HU : usual w h.
Hypothesis Hwf : wf s.
Hypothesis Hp : holds s p b.
Hypothesis Hb : image (w * h * 4) b.

Local Notation goal := (outcome s (apply_op o w h p s) (post o w h b)).

Ltac start N := unfold apply_op, apply_operation; rewrite N;
  repeat match goal with |- context [streq (txt ?a) (str ?b)] =>
    let v := eval vm_compute in (streq (txt a) (str b)) in change (streq (txt a) (str b)) with v end;
  cbv iota zeta.

Lemma u32w : u32 w = w. Proof. pose proof (usual_each _ _ HU). apply u32_cli. lia. Qed.
Lemma u32h : u32 h = h. Proof. pose proof (usual_each _ _ HU). apply u32_cli. lia. Qed.

Lemma same_size (b' : buf Z) : exact_image (w * h * 4) b' -> effect atof o w h b w h b' -> post o w h b w h b'.
Proof. intros X E. split; [exact HU|]. split; auto. Qed.

Lemma do_grayscale : named o "grayscale" -> goal.
Proof.
  intros N. start N. rewrite u32w, u32h. eapply outcome_weaken.
  - apply outcome_unsized. apply grayscale_ok with (b := b); auto using usual_dims. apply HU.
  - intros w' h' b' (-> & -> & X & G). apply same_size; [exact X|]. apply does_grayscale; auto.
    split; [exact X|]. intros x y [Hx Hy]. apply G; auto.
Qed.

Lemma do_blur r : named o "blur" -> op_p1 o = Some r -> dfinite r = true ->
  (B2R r = 0 \/ 1 / 1000000000000 <= B2R r <= 1000)%R -> goal.
Proof.
  intros N P1 Fr Hr. start N. rewrite P1, u32w, u32h. pose proof HU as (U1 & U2 & U3).
  apply outcome_weaken with (P := fun w' h' b' => w' = w /\ h' = h /\ exact_image (w * h * 4) b' /\
      (B2R r = 0%R -> exact_image (w * h * 4) b' /\ same_bytes (w * h * 4) b b') /\ (B2R r <> 0%R -> blurred w h (B2R r) b b')).
  - apply outcome_unsized. destruct Hr as [Z0|Hr].
    + eapply returns_fresh_weaken; [|apply (blur_zero exp w h r s p b); auto; unfold SIZE_MAX; lia].
      cbv beta. intros b' H. split; [apply H|]. split; [auto|]. intros K. contradiction.
    + eapply returns_fresh_weaken; [|apply (blur_ok exp w h r s p b); auto; lia].
      cbv beta. intros b' H. assert (B2R r <> 0%R) by Lra.lra. split; [apply H|]. split; [contradiction|auto].
  - intros w' h' b' (-> & -> & X & Y & Z). apply same_size; [exact X|]. eapply does_blur; eauto.
Qed.

Lemma do_threshold : named o "threshold" -> goal.
Proof.
  intros N. start N. rewrite u32w, u32h. pose proof HU as (U1 & U2 & U3).
  destruct (otsu_best w h s p b) as (t & T1 & H & _); auto using usual_dims; [lia|]. eapply outcome_weaken.
  - apply outcome_unsized. exact H.
  - intros w' h' b' (-> & -> & X & G). apply same_size; [exact X|]. eapply does_threshold; [auto|exact T1|].
    split; [exact X|]. intros x y [Hx Hy]. apply G; auto.
Qed.

Lemma otsu_called (dbl : bool) hf b' d : exact_image (w * h * 4) hf -> calls (fun w h p => otsu_threshold_rgba w h dbl p) w h hf b' ->
  (forall x y, 0 <= x < w -> 0 <= y < h -> opaque_gray hf w x y (d x y)) ->
  exists t, best_split w h d t /\
    forall x y, 0 <= x < w -> 0 <= y < h -> opaque_gray b' w x y (if dbl then double_map t (d x y) else single_map t (d x y)).
Proof.
  intros [Xl Xi] (s1 & p1 & q & s' & W1 & H1 & E & (i & Ei & Hq)) Hd. injection Ei as ->. pose proof HU as (U1 & U2 & U3).
  destruct (otsu_best w h s1 p1 hf) as (t & T1 & A & B); auto using usual_dims; [lia|].
  assert (Ed : forall x y, 0 <= x < w -> 0 <= y < h -> gray_at hf w x y = d x y).
  { intros x y Hx Hy. apply opaque_gray_at. auto. }
  exists t. split; [apply best_split_ext with (gray_at hf w); auto; lia|].
  destruct dbl.
  - destruct B as (p' & s'' & E' & _ & K). rewrite E in E'. injection E' as <- <-.
    destruct K as (_ & (b2 & B2 & _ & G) & _). rewrite Hq in B2. injection B2 as <-. intros x y Hx Hy. rewrite <- Ed by auto. auto.
  - destruct A as (p' & s'' & E' & _ & K). rewrite E in E'. injection E' as <- <-.
    destruct K as (_ & (b2 & B2 & _ & G) & _). rewrite Hq in B2. injection B2 as <-. intros x y Hx Hy. rewrite <- Ed by auto. auto.
Qed.

Lemma do_smart : named o "bw_smart" -> w * h <= 100000000 -> goal.
Proof.
  intros N Hs. start N. rewrite u32w, u32h. eapply outcome_weaken.
  - apply outcome_unsized. apply (smart_ok exp w h false s p b); auto using usual_dims.
  - intros w' h' b' (-> & -> & X & r & d & hf & R1 & R2 & R3 & R4 & R5). apply same_size; [exact X|].
    destruct (otsu_called false hf b' d R3 R5 R4) as (t & Ht & G). eapply does_smart; eauto. split; [exact X|].
    intros x y [Hx Hy]. exact (G x y Hx Hy).
Qed.

Lemma do_smooth : named o "bw_smooth" -> w * h <= 100000000 -> goal.
Proof.
  intros N Hs. start N. rewrite u32w, u32h. eapply outcome_weaken.
  - apply outcome_unsized. apply (smart_ok exp w h true s p b); auto using usual_dims.
  - intros w' h' b' (-> & -> & X & r & d & hf & R1 & R2 & R3 & R4 & R5). apply same_size; [exact X|].
    destruct (otsu_called true hf b' d R3 R5 R4) as (t & Ht & G). eapply does_smooth; eauto. split; [exact X|].
    intros x y [Hx Hy]. exact (G x y Hx Hy).
Qed.

Lemma do_flip_x : named o "flip_x" -> goal.
Proof.
  intros N. start N. rewrite u32w, u32h. eapply outcome_weaken.
  - apply outcome_unsized. apply flip_x_main with (b := b); auto using usual_dims.
  - intros w' h' b' (-> & -> & X & G). apply same_size; [exact X|]. apply does_flip_x; auto.
    intros x y c [Hx Hy] Hc. apply G; auto.
Qed.
Lemma do_flip_y : named o "flip_y" -> goal.
Proof.
  intros N. start N. rewrite u32w, u32h. eapply outcome_weaken.
  - apply outcome_unsized. apply flip_y_main with (b := b); auto using usual_dims.
  - intros w' h' b' (-> & -> & X & G). apply same_size; [exact X|]. apply does_flip_y; auto.
    intros x y c [Hx Hy] Hc. apply G; auto.
Qed.

Lemma do_crop x y cw ch : named o "crop" -> op_p1 o = Some x -> op_p2 o = Some y -> op_p3 o = Some cw -> op_p4 o = Some ch ->
    dfinite x = true -> dfinite y = true -> dfinite cw = true -> dfinite ch = true ->
    is_i32 (int_part x) -> is_i32 (int_part y) -> is_u32 (int_part cw) -> is_u32 (int_part ch) ->
    int_part x < w -> int_part y < h -> 0 < int_part cw -> 0 < int_part ch -> goal.
Proof.
  intros N P1 P2 P3 P4 F1 F2 F3 F4 I1 I2 I3 I4 B1 B2 B3 B4. start N. rewrite P1, P2, P3, P4. cbn [given num andb].
  eapply outcome_weaken.
  - eapply outcome_pic. apply crop_op_ok with (b := b); auto using usual_cli.
  - intros w' h' b' C. destruct C as (Ew & Eh & X & G) eqn:EC. split; [|split; [exact X|]].
    + clear -Ew Eh HU B1 B2 B3 B4. destruct HU as (U1 & U2 & U3). unfold usual. subst w' h'.
      assert (Z.min (int_part cw) (w - Z.max 0 (int_part x)) <= w) by lia.
      assert (Z.min (int_part ch) (h - Z.max 0 (int_part y)) <= h) by lia.
      assert (0 < Z.min (int_part cw) (w - Z.max 0 (int_part x))) by lia.
      assert (0 < Z.min (int_part ch) (h - Z.max 0 (int_part y))) by lia. split; [lia|]. split; [lia|]. nia.
    + eapply does_crop; eauto.
Qed.

Lemma do_rotate a k : named o "rotate" -> op_p1 o = Some a -> dfinite a = true -> is_i32 (int_part a) -> int_part a = 90 * k -> goal.
Proof.
  intros N P1 F1 I1 E. start N. rewrite P1. cbn [given num]. eapply outcome_weaken.
  - eapply outcome_pic. apply rotate_op_ok with (b := b) (k := k); auto using usual_cli.
  - intros w' h' b' C. split; [|split; [apply C|]].
    + destruct C as (_ & C0 & C1 & C2 & C3). assert (0 <= k mod 4 < 4) by (apply Z.mod_pos_bound; lia).
      assert (K : k mod 4 = 0 \/ k mod 4 = 1 \/ k mod 4 = 2 \/ k mod 4 = 3) by lia.
      pose proof HU as (U1 & U2 & U3). unfold usual.
      destruct K as [K|[K|[K|K]]].
      * destruct (C0 K) as (-> & -> & _); auto.
      * destruct (C1 K) as (-> & -> & _); lia.
      * destruct (C2 K) as (-> & -> & _); auto.
      * destruct (C3 K) as (-> & -> & _); lia.
    + eapply does_rotate; eauto.
Qed.

Lemma box_usual tol l r t bt w' h' b' : trim_box tol b w h 4 l r t bt -> is_box b w 4 l r t bt w' h' b' -> usual w' h'.
Proof.
  intros (T1 & T2 & T3 & T4 & _) (-> & -> & _). pose proof HU as (U1 & U2 & U3). unfold usual.
  clear -T1 T2 T3 T4 U1 U2 U3. assert (0 < r - l <= w) by lia. assert (0 < bt - t <= h) by lia.
  split; [lia|]. split; [lia|]. nia.
Qed.

Lemma do_trim pct : named o "trim" -> asks_percent atof o pct -> dfinite pct = true -> goal.
Proof.
  intros N A Fp. start N. pose proof (usual_each _ _ HU) as [U1 U2]. pose proof HU as (_ & _ & U3).
  destruct trim_threshold_spec as (T & T1 & _ & T3 & _ & T5).
  assert (PT : percent_tolerance pct (T pct)).
  { split; [apply T3; auto|]. intros n Hn ->. apply T1; auto. }
  assert (K : outcome s (trim_threshold w h 4 p pct s) (post o w h b)).
  { eapply outcome_weaken.
    - apply (T5 w h 4 s p b pct); auto; lia.
    - intros w' h' b' (l & r & t & bt & TB & IB). split; [eapply box_usual; eauto|]. split; [apply IB|].
      eapply does_trim; eauto. }
  unfold trim_op. destruct A as [t St HP|x Sx P1|Sx P1].
  - rewrite St, (has_chr_in 37 t HP). exact K.
  - rewrite Sx, P1. exact K.
  - rewrite Sx, P1. eapply outcome_weaken.
    + apply (trim_ok w h 4 s p b); auto; lia.
    + intros w' h' b' (l & r & t & bt & TB & IB). split; [eapply box_usual; eauto|]. split; [apply IB|].
      eapply (does_trim atof o w h b d0 0 l r t bt); eauto; [apply percent_none; auto|].
      split; [lia|]. intros n Hn E. rewrite <- (T1 n Hn), <- E. symmetry. exact (T1 0 ltac:(lia)).
Qed.

Lemma do_histogram : named o "histogram" ->
  (forall c v, 0 <= c < 3 -> 0 <= v < 256 -> level_count b (w * h) 4 c v <= 21474836) -> goal.
Proof.
  intros N Hc. start N. unfold histogram_op. rewrite u32w, u32h. pose proof HU as (U1 & U2 & U3). eapply outcome_weaken.
  - apply outcome_sized.
    + apply (histogram_ok w h 4 s p b 0 0); auto; try lia. unfold SIZE_MAX; lia.
    + intros w' h' b' (-> & -> & _). lia.
  - intros w' h' b' (-> & -> & bars & BC & HB). split; [unfold usual; lia|]. split; [apply BC|]. eapply does_histogram; eauto.
Qed.

Lemma do_border hex x : named o "border" -> op_str o = Some hex -> op_p1 o = Some x -> dfinite x = true -> 0 < int_part x ->
  usual (w + 2 * int_part x) (h + 2 * int_part x) -> goal.
Proof.
  intros N Sx P1 F1 Hx Hs. start N. unfold border_op. rewrite Sx, P1, u32w, u32h. pose proof HU as (U1 & U2 & U3).
  pose proof Hs as (Bx & By & Hm).
  rewrite (bindM_lift _ _ _ _ (to_u32_ok x F1 ltac:(unfold is_u32; lia))).
  destruct (hex_pure hex) as [[cr cg] cb] eqn:EH.
  assert (PH : parse_hex_color hex = Ok (cr, cg, cb)) by (rewrite parse_hex_pure, EH; reflexivity).
  destruct (add_border_ok w h 4 hex (int_part x) s p b 0 0 cr cg cb) as (col & DC & R); auto; try lia.
  eapply outcome_weaken.
  - apply outcome_sized; [exact R|]. intros w' h' b' (-> & -> & _). lia.
  - intros w' h' b' C. pose proof C as (-> & -> & X & _). split; [|split; [exact X|]].
    + exact Hs.
    + eapply does_border; eauto.
Qed.

Lemma trim_solid t : solid t -> trim_whitespace t = t.
Proof.
  intros H. destruct t as [|c t]; [reflexivity|].
  assert (K : forall d, In d (c :: t) -> isspace d = false).
  { intros d Hd. destruct (isspace d) eqn:E; [|reflexivity]. apply isspace_iff in E. unfold solid in H. rewrite Forall_forall in H. exfalso. exact (H d Hd E). }
  apply trim_id; [discriminate|apply K; left; reflexivity|]. apply K.
  destruct (exists_last (l := c :: t)) as (u & d & E); [discriminate|]. rewrite E, last_last. apply in_or_app. right. left. reflexivity.
Qed.
Lemma has_chr_not c t : ~ In c t -> has_chr c t = false.
Proof. intros H. unfold has_chr. rewrite strchr_none by auto. reflexivity. Qed.

Lemma do_resize rx ry : named o "resize" -> asks_scale atof o w h rx ry -> factor_ok w rx -> factor_ok h ry ->
  usual (out_size w rx) (out_size h ry) -> (op_str o <> None -> orc s (tick s) = true) -> goal.
Proof.
  intros N A Fx Fy Hs Hor. start N. pose proof HU as (U1 & U2 & U3).
  pose proof Hs as (Ow & Oh & Hm).
  assert (K : forall s1, wf s1 -> holds s1 p b -> outcome s1
     ((r <-- resize (u32 w) (u32 h) rx ry 0 0 p ;; ret (sized w h r)) s1) (post o w h b)).
  { intros s1 W1 H1. rewrite u32w, u32h. eapply outcome_weaken.
    - apply outcome_sized.
      + apply outcome_resize. apply (resize_main w h rx ry 0 0 s1 p b); auto; lia.
      + intros w' h' b' (-> & -> & _). lia.
    - intros w' h' b' (-> & -> & X). split; [exact Hs|]. split; [apply X|]. eapply does_resize; eauto. }
  assert (D : forall t, op_str o = Some t -> resize_factors atof t w h = Some (rx, ry) ->
    outcome s (resize_op atof o w h p s) (post o w h b)).
  { intros t St Ef. unfold resize_op. rewrite St, Ef. unfold strdup.
    destruct (alloc_plus s (OBytes (of_list (t ++ [0]))) Hwf) as (s1 & E1 & Pl & _); [apply Hor; congruence|].
    destruct (free_plus _ _ _ Pl) as (s2 & E2 & L2 & S2 & _).
    unfold bindM at 1 2. rewrite E1. cbn [text_of]. unfold bindM at 1 2. cbn [ret]. rewrite E2. cbn [ret].
    eapply outcome_after; [exact L2|exact S2|]. apply K; [apply L2|].
    destruct Hp as (i & -> & Hi). exists i. split; [reflexivity|]. rewrite S2. exact Hi. }
  destruct A as [r S1 P1 P2|r1 r2 S1 P1 P2|t S1 NX HP|t u S1 St Su NX HP|t u S1 St Su NX HP].
  - unfold resize_op. rewrite S1, P1, P2. apply K; auto.
  - unfold resize_op. rewrite S1, P1, P2. apply K; auto.
  - apply (D t S1). unfold resize_factors. change 120 with LETTER_X. rewrite strchr_none by auto. rewrite has_chr_in by auto. reflexivity.
  - apply (D _ S1). unfold resize_factors. change 120 with LETTER_X. rewrite strchr_app by auto. rewrite !trim_solid by auto.
    rewrite has_chr_in by auto. reflexivity.
  - apply (D _ S1). unfold resize_factors. change 120 with LETTER_X. rewrite strchr_app by auto. rewrite !trim_solid by auto.
    rewrite has_chr_not by auto. reflexivity.
Qed.
End Ops.
