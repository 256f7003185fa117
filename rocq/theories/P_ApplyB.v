(** * P_ApplyB: the operations of the command line that need temporary blocks *)
From Coq Require Import Reals String Classical Lra.
From Flocq Require Import Core.
From Verif Require Import Base BaseLemmas F Heap HeapLemmas Spec Spec_Draw Spec_Cli Spec_Sobel
  Spec_Blur Spec_Watershed Spec_Parse Spec_Trim Spec_Color FLemmas
  M_Color P_Color P_Color3 M_Draw P_Draw P_Draw2 M_Sobel P_Sobel M_Watershed P_Watershed P_WatershedEx M_Morph P_Morph
  M_Parse P_Parse M_Cli P_Cli M_Apply Spec_Morph Spec_Apply P_ApplyA.
Local Open Scope string_scope.
Local Open Scope list_scope.
Local Open Scope Z_scope.

Lemma usual_u32 w h : usual w h -> u32 w = w /\ u32 h = h.
Proof. intros U. pose proof (usual_each _ _ U). split; apply u32_cli; lia. Qed.
Lemma post_same atof o w h b b' : usual w h -> exact_image (w * h * 4) b' -> effect atof o w h b w h b' -> post atof o w h b w h b'.
Proof. intros U X E. split; [exact U|]. split; auto. Qed.

(** ** More on temporary blocks *)
Lemma outcome_then s s0 (m : M ptr) (k : ptr -> M (ptr * Z * Z)) P Q w h :
  returns_fresh s (m s0) P -> (forall s1, k Null s1 = Ok (Null, w, h, s1)) ->
  (forall s1 q b, plus s s1 q -> mem s1 q = Some (OBytes b) -> P b -> outcome s (k (Ptr q) s1) Q) ->
  outcome s ((p <-- m ;; k p) s0) Q.
Proof.
  intros (p & s1 & E & L & H) K0 K. rewrite (bindM_Ok _ _ _ _ _ E). destruct p as [|q].
  - rewrite K0. exists Null, w, h, s1. split; [reflexivity|]. split; auto.
  - destruct H as (A & (b & B & C) & D). apply K with (b := b); auto. split; [exact L|]. split; [exact A|]. split; [exists (OBytes b); exact B|exact D].
Qed.

Lemma bracket_fresh s s1 t (m : M ptr) P : plus s s1 t -> returns_fresh s1 (m s1) P ->
  returns_fresh s ((r <-- m ;; _ <-- free (Ptr t) ;; ret r) s1) P.
Proof.
  intros (L & N & (o & Eo) & D) (p & s' & E & L' & H). rewrite (bindM_Ok _ _ _ _ _ E).
  assert (T : mem s' t = Some o).
  { destruct p as [|i]; [destruct H as [A _]; rewrite A; exact Eo|]. destruct H as (A & _ & C). rewrite C; [exact Eo|congruence]. }
  rewrite (bindM_Ok _ _ _ _ _ (free_ok _ _ _ T)).
  exists p, (mkst (upd (mem s') t None) (nxt s') (orc s') (tick s')). split; [reflexivity|].
  split; [apply later_upd; eapply later_trans; eauto|].
  destruct p as [|i].
  - destruct H as [A (n & Hn & Fn)]. destruct L as (W & O & Tk & Nx). split.
    + intros j. cbn [mem]. unfold upd. destruct (Z.eqb_spec j t) as [->|]; [auto|]. rewrite A. auto.
    + exists n. cbn [tick]. split; [lia|congruence].
  - destruct H as (A & (b & B & C) & F). assert (i <> t) by congruence.
    split; [rewrite <- D by auto; exact A|]. split.
    + exists b. split; [cbn [mem]; rewrite upd_other by auto; exact B|exact C].
    + intros j Hj. cbn [mem]. unfold upd. destruct (Z.eqb_spec j t) as [->|]; [auto|]. rewrite F by auto. auto.
Qed.

Lemma sized_bracket w h (m : M ptr) t s1 :
  (r <-- m ;; _ <-- free t ;; ret (r, w, h)) s1 = (r <-- unsized w h m ;; _ <-- free t ;; ret r) s1.
Proof. unfold unsized, bindM. destruct (m s1) as [[r s2]| | |]; reflexivity. Qed.

Lemma split_free (m : M ptr) t (k : ptr -> M (ptr * Z * Z)) s1 :
  (r <-- m ;; _ <-- free t ;; k r) s1 = (x <-- (r <-- m ;; _ <-- free t ;; ret r) ;; k x) s1.
Proof. unfold bindM. destruct (m s1) as [[r s2]| | |]; [|reflexivity..]. destruct (free t s2) as [[u s3]| | |]; reflexivity. Qed.

(** ** Texts *)
Lemma words_acc a : ~ In 32 a -> forall cur r, words cur (a ++ r) = words (rev a ++ cur) r.
Proof.
  induction a as [|c a IH]; intros H cur r; [reflexivity|]. cbn [app words].
  replace (c =? 32) with false by (symmetry; apply Z.eqb_neq; intros ->; apply H; left; reflexivity).
  rewrite IH by (intros X; apply H; right; exact X). cbn [rev]. rewrite <- app_assoc. reflexivity.
Qed.
Lemma words_one a : a <> [] -> ~ In 32 a -> words [] a = [a].
Proof.
  intros Hne H. rewrite <- (app_nil_r a) at 1. rewrite words_acc by auto. rewrite app_nil_r. cbn [words].
  destruct (rev a) eqn:E; [exfalso; apply Hne; rewrite <- (rev_involutive a), E; reflexivity|].
  rewrite <- E, rev_involutive. reflexivity.
Qed.
Lemma words_cons a r : a <> [] -> ~ In 32 a -> words [] (a ++ 32 :: r) = a :: words [] r.
Proof.
  intros Hne H. rewrite words_acc by auto. rewrite app_nil_r. cbn [words]. rewrite Z.eqb_refl.
  destruct (rev a) eqn:E; [exfalso; apply Hne; rewrite <- (rev_involutive a), E; reflexivity|].
  rewrite <- E, rev_involutive. reflexivity.
Qed.
Lemma words_first t hex : first_word t hex -> hd_error (words [] t) = Some hex.
Proof.
  intros (A & B & [->|(r & ->)]).
  - rewrite words_one by auto. reflexivity.
  - unfold SPACE in *. rewrite words_cons by auto. reflexivity.
Qed.

Definition piece (m : cstr * cstr) : cstr := fst m ++ LETTER_X :: snd m.
Lemma piece_ok m : solid (fst m) -> solid (snd m) -> piece m <> [] /\ ~ In 32 (piece m).
Proof.
  intros A B. unfold piece, solid in *. rewrite Forall_forall in A, B. split; [destruct (fst m); discriminate|].
  intros H. apply in_app_or in H. destruct H as [H|[H|H]]; [apply (A _ H)|discriminate H|apply (B _ H)]; left; reflexivity.
Qed.
Lemma words_spaced l : l <> [] -> Forall (fun t => t <> [] /\ ~ In 32 t) l -> words [] (spaced l) = l.
Proof.
  induction l as [|a l IH]; intros Hne F; [congruence|]. inversion F as [|? ? [F1 F2] F3]; subst. cbn [spaced].
  destruct l as [|a2 l]; [apply words_one; auto|]. unfold SPACE. rewrite words_cons by auto. f_equal. apply IH; [discriminate|exact F3].
Qed.
Lemma count_none a : ~ In 32 a -> count_spaces a = 0.
Proof.
  induction a as [|c a IH]; intros H; [reflexivity|]. cbn [count_spaces].
  replace (c =? 32) with false by (symmetry; apply Z.eqb_neq; intros ->; apply H; left; reflexivity).
  rewrite IH; [reflexivity|]. intros X; apply H; right; exact X.
Qed.
Lemma count_app a b : count_spaces (a ++ b) = count_spaces a + count_spaces b.
Proof. induction a as [|c a IH]; [reflexivity|]. cbn [app count_spaces]. rewrite IH. lia. Qed.
Lemma count_spaced l : l <> [] -> Forall (fun t => t <> [] /\ ~ In 32 t) l -> 1 + count_spaces (spaced l) = Z.of_nat (List.length l).
Proof.
  induction l as [|a l IH]; intros Hne F; [congruence|]. inversion F as [|? ? [F1 F2] F3]; subst. cbn [spaced].
  destruct l as [|a2 l]; [rewrite count_none by auto; reflexivity|]. rewrite count_app, (count_none a) by auto.
  change (count_spaces (SPACE :: spaced (a2 :: l))) with (1 + count_spaces (spaced (a2 :: l))).
  rewrite IH by (auto; discriminate). cbn [List.length]. lia.
Qed.

Section Markers.
Variable atof : cstr -> f64.
Lemma parse_markers_ok l : Forall (fun m => solid (fst m) /\ solid (snd m) /\ ~ In LETTER_X (fst m)) l ->
  forall n i mk, 0 <= i -> i + Z.of_nat (List.length l) <= n -> n <= blen mk ->
  exists mk', parse_markers atof n (List.map piece l) i mk = Ok (i + Z.of_nat (List.length l), mk') /\ blen mk' = blen mk /\
    (forall j, 0 <= j < i -> bget mk' j = bget mk j) /\
    forall j m, nth_error l j = Some m -> bget mk' (i + Z.of_nat j) = Some (atof (fst m), atof (snd m)).
Proof.
  induction l as [|m l IH]; intros F n i mk Hi Hn Hb.
  - exists mk. cbn [List.map parse_markers List.length]. rewrite Z.add_0_r. split; [reflexivity|]. split; [reflexivity|]. split; [auto|].
    intros j m H. destruct j; discriminate H.
  - inversion F as [|? ? (F1 & F2 & F3) F4]; subst. cbn [List.length] in Hn. cbn [List.map parse_markers].
    replace (i <? n) with true by lia. unfold piece at 1. change 120 with LETTER_X. rewrite strchr_app by auto. rewrite !trim_solid by auto.
    rewrite store_ok by lia. rewrite bind_Ok.
    destruct (IH F4 n (i + 1) (bset mk i (atof (fst m), atof (snd m)))) as (mk' & E & L & A & B); try lia; [simpl; lia|].
    exists mk'. split; [rewrite E; f_equal; f_equal; cbn [List.length]; lia|]. split; [exact L|]. split.
    + intros j Hj. rewrite A by lia. simpl. replace (j =? i) with false by lia. reflexivity.
    + intros j m' H. destruct j as [|j]; cbn [nth_error] in H.
      * injection H as <-. rewrite Z.add_0_r, A by lia. simpl. rewrite Z.eqb_refl. reflexivity.
      * specialize (B j m' H). rewrite <- B. f_equal. lia.
Qed.
End Markers.

(** ** Extensionality *)
Lemma flows_ext w h (P P' : Z -> Z -> Prop) x0 y0 x y : (forall u v, inside w h u v -> P u v -> P' u v) -> flows w h P x0 y0 x y -> flows w h P' x0 y0 x y.
Proof. intros E F. induction F; [constructor|]. econstructor; eauto. Qed.
Lemma watershed_of_ext w h g g' mk n L : (forall u v, inside w h u v -> g u v = g' u v) ->
  watershed_of w h g mk n L -> watershed_of w h g' mk n L.
Proof.
  intros E W x y I Hl j (m & Hm & F). eapply flows_ext; [|apply (W x y I Hl j)].
  - cbv beta. intros u v Iu [A B]. rewrite <- E by auto. auto.
  - exists m. split; [exact Hm|]. eapply flows_ext; [|exact F]. cbv beta. intros u v Iu. rewrite <- E by auto. auto.
Qed.
Lemma dilated_ext w h r A A' x y : (forall u v, inside w h u v -> (A u v <-> A' u v)) -> (dilated w h r A x y <-> dilated w h r A' x y).
Proof. intros E. split; intros (u & v & I & D & H); exists u, v; split; auto; split; auto; apply E; auto. Qed.
Lemma eroded_ext w h r A A' x y : (forall u v, inside w h u v -> (A u v <-> A' u v)) -> (eroded w h r A x y <-> eroded w h r A' x y).
Proof. intros E. split; intros H u v D; destruct (H u v D) as [I K]; split; auto; apply E; auto. Qed.
Lemma eroded_rep_ext w h r A A' x y : 0 < w -> 0 < h -> (forall u v, inside w h u v -> (A u v <-> A' u v)) ->
  (eroded_rep w h r A x y <-> eroded_rep w h r A' x y).
Proof. intros Hw Hh E. split; intros H u v D; specialize (H u v D); apply E; auto; unfold inside, clampZ; lia. Qed.

(** ** The operations *)
Section Ops.
Variables (atof : cstr -> f64) (exp : f64 -> f64) (atan2 : f64 -> f64 -> f64) (asin pow2 : f64 -> f64).
Variables (fuel : nat) (identity : ptr).
Hypothesis Hfuel : 1073741825 < Z.of_nat fuel.
Let apply_op := apply_operation atof exp atan2 asin pow2 fuel identity.
Variables (o : pipeline_op) (w h : Z) (s : st) (p : ptr) (b : buf Z).
Hypothesis HU : usual w h.
Hypothesis Hwf : wf s.
Hypothesis Hp : holds s p b.
Hypothesis Hb : image (w * h * 4) b.

Local Notation goal := (outcome s (apply_op o w h p s) (post atof o w h b)).
Ltac start N := unfold apply_op, apply_operation; rewrite N;
  repeat match goal with |- context [streq (txt ?a) (str ?b)] =>
    let v := eval vm_compute in (streq (txt a) (str b)) in change (streq (txt a) (str b)) with v end;
  cbv iota zeta.

(** A gray picture, made opaque, and released *)
Lemma to_rgba s0 s1 q g (R : Z -> Z -> buf Z -> Prop) : plus s0 s1 q -> mem s1 q = Some (OBytes g) -> image (w * h) g ->
  (forall b', exact_image (w * h * 4) b' -> (forall x y, 0 <= x < w -> 0 <= y < h -> opaque_gray b' w x y (pixv g w 1 x y 0)) -> R w h b') ->
  outcome s0 ((r <-- single_to_multichannel (u32 w) (u32 h) (Ptr q) ;; _ <-- free (Ptr q) ;; ret (r, w, h)) s1) R.
Proof.
  intros Pl M I K. rewrite sized_bracket. apply bracket; [exact Pl|]. rewrite (proj1 (usual_u32 w h HU)), (proj2 (usual_u32 w h HU)). eapply outcome_weaken.
  - apply outcome_unsized. apply (single_to_multichannel_ok w h s1 (Ptr q) g); auto using usual_dims; [eapply plus_wf; eauto|]. exists q; auto.
  - intros w' h' b' (-> & -> & X & G). apply K; auto.
Qed.

Lemma do_sobel : named o "sobel" -> goal.
Proof.
  intros N. start N. unfold sobel_op. pose proof (usual_each _ _ HU) as [U1 U2]. pose proof HU as (_ & _ & U3).
  eapply outcome_then with (w := w) (h := h).
  - rewrite (proj1 (usual_u32 w h HU)), (proj2 (usual_u32 w h HU)). apply (sobel_rgba_image w h 4 s p b); auto; try lia. unfold SIZE_MAX; lia.
  - intros s1. reflexivity.
  - intros s1 q e Pl M He. cbn [is_null]. eapply to_rgba; eauto; [apply He|].
    intros b' X G. apply post_same; [exact HU|exact X|]. eapply does_sobel; eauto. split; [exact X|]. intros x y [Hx Hy]. apply G; auto.
Qed.

Lemma do_morph (morph : ptr -> Z -> Z -> Z -> M ptr) (F : (Z -> Z -> Prop) -> Z -> Z -> Prop) r :
  op_p1 o = Some r -> dfinite r = true -> 0 <= int_part r <= 32767 ->
  (forall s1 q g, wf s1 -> holds s1 q g -> image (w * h) g ->
     returns_fresh s1 (morph q w h (int_part r) s1) (fun b' => bw_picture w h b' (F (white g w)))) ->
  (forall A A' x y, (forall u v, inside w h u v -> (A u v <-> A' u v)) -> inside w h x y -> (F A x y <-> F A' x y)) ->
  (forall b', black_white w h b' (F (fun x y => gray_at b w x y = 255)) -> effect atof o w h b w h b') ->
  outcome s (morph_op morph o w h p s) (post atof o w h b).
Proof.
  intros P1 Fr Hr Mo Ext Eff. unfold morph_op. rewrite P1. pose proof (usual_each _ _ HU) as [U1 U2]. pose proof HU as (_ & _ & U3).
  eapply outcome_then with (w := w) (h := h).
  - rewrite (proj1 (usual_u32 w h HU)), (proj2 (usual_u32 w h HU)). apply (rgba_to_grayscale_ok w h s p b); auto using usual_dims.
  - intros s1. reflexivity.
  - intros s1 q g Pl M [Xg Gg]. cbn [is_null].
    rewrite (bindM_lift _ _ _ _ (to_i32_ok r Fr ltac:(unfold is_i32; lia))). rewrite split_free.
    eapply outcome_then with (w := w) (h := h).
    + apply bracket_fresh; [exact Pl|]. apply (Mo s1 (Ptr q) g); [eapply plus_wf; eauto|exists q; auto|apply Xg].
    + intros s2. reflexivity.
    + intros s2 c g2 Pl2 M2 [X2 G2]. cbn [is_null]. eapply to_rgba; eauto; [apply X2|].
      intros b' X G. apply post_same; [exact HU|exact X|]. apply Eff. split; [exact X|]. intros x y I.
      assert (EQ : F (white g w) x y <-> F (fun x y => gray_at b w x y = 255) x y).
      { apply Ext; auto. intros u v [Iu Iv]. unfold white. rewrite Gg by auto. split; [congruence|intros ->; reflexivity]. }
      destruct (G2 x y I) as [G3 G4]. destruct I as [Ix Iy]. specialize (G x y Ix Iy). unfold pixv in G. split.
      * intros H. apply EQ in H. apply G3 in H. unfold white in H. rewrite H in G. exact G.
      * intros H. destruct G4 as [W|W]; [exfalso; apply H, EQ, G3, W|]. rewrite W in G. exact G.
Qed.

Lemma morph_dims r : 0 <= int_part r <= 32767 -> morph_ok w h (int_part r).
Proof. intros Hr. pose proof (usual_each _ _ HU) as [U1 U2]. pose proof HU as (_ & _ & U3). unfold morph_ok. lia. Qed.

Lemma do_erode r : named o "erode" -> op_p1 o = Some r -> dfinite r = true -> 0 <= int_part r <= 32767 -> goal.
Proof.
  intros N P1 Fr Hr. start N. apply do_morph with (F := eroded w h (int_part r)) (r := r); auto.
  - intros. apply erosion_ok; auto using morph_dims.
  - intros. apply eroded_ext; auto.
  - intros. eapply does_erode; eauto.
Qed.
Lemma do_dilate r : named o "dilate" -> op_p1 o = Some r -> dfinite r = true -> 0 <= int_part r <= 32767 -> goal.
Proof.
  intros N P1 Fr Hr. start N. apply do_morph with (F := dilated w h (int_part r)) (r := r); auto.
  - intros. apply dilation_ok; auto using morph_dims.
  - intros. apply dilated_ext; auto.
  - intros. eapply does_dilate; eauto.
Qed.
Lemma do_close r : named o "close" -> op_p1 o = Some r -> dfinite r = true -> 0 <= int_part r <= 32767 -> goal.
Proof.
  intros N P1 Fr Hr. start N. pose proof HU as (U1 & U2 & _).
  apply do_morph with (F := fun A => eroded_rep w h (int_part r) (dilated w h (int_part r) A)) (r := r); auto.
  - intros. apply closing_ok; auto using morph_dims.
  - intros. apply eroded_rep_ext; try lia. intros. apply dilated_ext; auto.
  - intros. eapply does_close; eauto.
Qed.
Lemma do_open r : named o "open" -> op_p1 o = Some r -> dfinite r = true -> 0 <= int_part r <= 32767 -> goal.
Proof.
  intros N P1 Fr Hr. start N.
  apply do_morph with (F := fun A => dilated w h (int_part r) (eroded w h (int_part r) A)) (r := r); auto.
  - intros. apply opening_ok; auto using morph_dims.
  - intros. apply dilated_ext; auto. intros. apply eroded_ext; auto.
  - intros. eapply does_open; eauto.
Qed.

(** ** Circle and disk *)
Lemma copy_int_ok s1 : w * h <= 536870911 -> wf s1 -> holds s1 p b ->
  returns_fresh s1 (copy_int w h p s1) (fun b' => exact_image (w * h * 4) b' /\
    forall i, 0 <= i < w * h * 4 -> bget b' i = bget b i).
Proof.
  intros Hs W1 (d & -> & Hd). pose proof HU as (U1 & U2 & _). destruct Hb as [Hl Him]. unfold copy_int.
  rewrite (bindM_lift _ _ _ (w * h)) by (unfold ck32, INT_MIN, INT_MAX; replace ((-2147483648 <=? w * h) && (w * h <=? 2147483647)) with true by lia; reflexivity).
  rewrite (bindM_lift _ _ _ (w * h * 4)) by (unfold ck32, INT_MIN, INT_MAX; replace ((-2147483648 <=? w * h * 4) && (w * h * 4 <=? 2147483647)) with true by lia; reflexivity).
  destruct (bcopy_ok (bnew (w * h * 4)) 0 b 0 (w * h * 4)) as (b' & E' & L & G); try lia; [simpl; lia|].
  apply returns_fresh_1 with (b := b) (f := fun src dst => bcopy dst 0 src 0 (w * h * 4)) (b' := b'); auto.
  assert (G' : forall j, 0 <= j < w * h * 4 -> bget b' j = bget b j).
  { intros j Hj. rewrite G. replace ((0 <=? j) && (j <? 0 + w * h * 4)) with true by lia. f_equal. lia. }
  split; [|exact G'].
  split; [rewrite L; reflexivity|]. split; [rewrite L; simpl; lia|]. intros i Hi. rewrite G' by lia. apply Him; lia.
Qed.

Lemma radius_nonneg r cx cy : draw_ok w h 4 r cx cy -> 0 <= int_part r.
Proof.
  intros (_ & _ & _ & Fr & _ & _ & Nl & _). unfold int_part.
  pose proof (btrunc_R r _ (isd_finite _ Fr)) as ->.
  rewrite (dlt_R r d0 _ _ (isd_finite _ Fr) isd_d0) in Nl. destruct (Rlt_bool_spec (B2R r) 0) as [|C]; [discriminate|].
  rewrite Ztrunc_floor by auto. apply Zfloor_lub. exact C.
Qed.

Lemma do_draw draw shape like t hex r cx cy :
  draws draw shape -> (forall r, 0 <= r -> like r (shape r)) ->
  op_str o = Some t -> first_word t hex -> op_p1 o = Some r -> op_p2 o = Some cx -> op_p3 o = Some cy ->
  draw_ok w h 4 r cx cy -> w * h <= 536870911 -> orc s (tick s) = true ->
  (forall b' cr cg cb col, parse_hex_color hex = Ok (cr, cg, cb) -> drawn_colour 4 cr cg cb col -> like (int_part r) (shape (int_part r)) ->
    exact_image (w * h * 4) b' ->
    (forall x y c, inside w h x y -> 0 <= c < 4 ->
       (shape (int_part r) (x - int_part cx) (y - int_part cy) -> pix b' w 4 x y c = Some (col c)) /\
       (~ shape (int_part r) (x - int_part cx) (y - int_part cy) -> pix b' w 4 x y c = pix b w 4 x y c)) -> effect atof o w h b w h b') ->
  outcome s (draw_op draw o w h p s) (post atof o w h b).
Proof.
  intros Dr Lk St FW P1 P2 P3 DO Hs Hor Eff. unfold draw_op. rewrite St, P1, P2, P3. cbn [given negb orb num].
  pose proof HU as (U1 & U2 & U3).
  unfold strdup. destruct (alloc_plus s (OBytes (of_list (t ++ [0]))) Hwf Hor) as (s1 & E1 & Pl & _).
  rewrite (bindM_Ok _ _ _ _ _ E1). cbn [text_of]. unfold bindM at 1. cbn [ret]. rewrite (words_first t hex FW).
  rewrite (proj1 (usual_u32 w h HU)), (proj2 (usual_u32 w h HU)).
  match goal with |- outcome s (?run s1) _ =>
    assert (ER : run s1 = (x <-- (q <-- copy_int w h p ;; if is_null q then ret (Null, w, h) else
                                  _ <-- draw w h 4 (Some hex) r cx cy q ;; ret (q, w, h)) ;;
                           _ <-- free (Ptr (nxt s)) ;; ret x) s1) end.
  { unfold bindM. destruct (copy_int w h p s1) as [[q s2]| | |]; [|reflexivity..]. destruct q as [|q]; cbn [is_null]; [reflexivity|].
    destruct (draw w h 4 (Some hex) r cx cy (Ptr q) s2) as [[u s3]| | |]; reflexivity. }
  rewrite ER. apply bracket; [exact Pl|]. eapply outcome_then with (w := w) (h := h).
  - apply copy_int_ok; [exact Hs|eapply plus_wf; eauto|eapply plus_holds; eauto].
  - intros s2. reflexivity.
  - intros s2 q c Pl2 M2 [[Xl Xi] Gc]. cbn [is_null].
    destruct (hex_pure hex) as [[cr cg] cb] eqn:EH.
    assert (PH : parse_hex_color hex = Ok (cr, cg, cb)) by (rewrite parse_hex_pure, EH; reflexivity).
    destruct (Dr w h 4 hex r cx cy s2 (Ptr q) c cr cg cb) as (col & DC & d & s3 & b' & Ed & Erun & M3 & (PL & PP & PO) & O3 & N3 & Or3 & T3); auto;
      [exists q; auto|lia|].
    injection Ed as <-. rewrite (bindM_Ok _ _ _ _ _ Erun). exists (Ptr q), w, h, s3. split; [reflexivity|].
    destruct Pl2 as (L2 & Nq & _ & D2).
    assert (X' : exact_image (w * h * 4) b').
    { split; [lia|]. split; [lia|]. intros i Hi. destruct (px_decomp w h 4 i) as (x & y & k & Hx & Hy & Hk & Ei); try lia.
      destruct (PP x y k (conj Hx Hy) Hk) as [PA PB]. unfold pix in PA, PB. rewrite <- Ei in PA, PB.
      destruct (classic (shape (int_part r) (x - int_part cx) (y - int_part cy))) as [S|S].
      - exists (col k). split; [auto|]. destruct (parse_hex_bytes hex cr cg cb EH) as (B1 & B2 & B3).
        cbn in DC. destruct DC as (C0 & C1 & C2 & C3).
        assert (KK : k = 0 \/ k = 1 \/ k = 2 \/ k = 3) by lia.
        destruct KK as [-> | [-> | [-> | ->]]]; [rewrite C0|rewrite C1|rewrite C2|rewrite C3]; auto; unfold byte; lia.
      - rewrite PB by auto. apply Xi. exact Hi. }
    split; [|split].
    + destruct L2 as (W2 & O2 & Tk2 & Nx2). split; [|repeat split; congruence || lia].
      intros j Hj. rewrite O3; [apply W2; lia|]. intros ->. rewrite W2 in M2; [discriminate|lia].
    + exact Nq.
    + split; [|intros j Hj; rewrite O3 by auto; apply D2; auto].
      exists b'. split; [exact M3|]. apply post_same; [exact HU|exact X'|]. eapply Eff; eauto.
      * apply Lk. eapply radius_nonneg; eauto.
      * intros x y k I Hk. destruct (PP x y k I Hk) as [PA PB]. split; [exact PA|]. intros S. rewrite PB by exact S.
        unfold pix. apply Gc. destruct I as [Ix Iy]. pose proof (rm_bound w h x y Ix Iy). lia.
Qed.

Lemma do_circle t hex r cx cy : named o "circle" -> op_str o = Some t -> first_word t hex ->
  op_p1 o = Some r -> op_p2 o = Some cx -> op_p3 o = Some cy ->
  draw_ok w h 4 r cx cy -> w * h <= 536870911 -> orc s (tick s) = true -> goal.
Proof.
  intros N St FW P1 P2 P3 DO Hs Hor. start N. destruct circle_ok as (ring & Dr & Lk).
  eapply do_draw with (like := ring_like); eauto. intros. eapply does_circle; eauto.
Qed.
Lemma do_disk t hex r cx cy : named o "disk" -> op_str o = Some t -> first_word t hex ->
  op_p1 o = Some r -> op_p2 o = Some cx -> op_p3 o = Some cy ->
  draw_ok w h 4 r cx cy -> w * h <= 536870911 -> orc s (tick s) = true -> goal.
Proof.
  intros N St FW P1 P2 P3 DO Hs Hor. start N. destruct disk_ok as (disk & Dr & Lk).
  eapply do_draw with (like := disk_like); eauto. intros. eapply does_disk; eauto.
Qed.

(** ** Watershed *)
Lemma do_watershed t l : named o "watershed" -> op_str o = Some t -> marker_text t l -> Z.of_nat (List.length l) <= 2147483647 ->
  Forall (fun m => dfinite (atof (fst m)) = true /\ dfinite (atof (snd m)) = true /\
                   inside w h (int_part (atof (fst m))) (int_part (atof (snd m)))) l ->
  orc s (tick s) = true -> goal.
Proof.
  intros N St MT Hl FM Hor. start N. pose proof HU as (U1 & U2 & U3). pose proof MT as (Hne & Et & FT).
  unfold watershed_op. rewrite St.
  unfold strdup. destruct (alloc_plus s (OBytes (of_list (t ++ [0]))) Hwf Hor) as (s1 & E1 & Pl1 & _).
  rewrite (bindM_Ok _ _ _ _ _ E1). cbn [text_of]. unfold bindM at 1. cbn [ret].
  assert (FP : Forall (fun t => t <> [] /\ ~ In 32 t) (List.map piece l)).
  { rewrite Forall_forall in FT. apply Forall_forall. intros u Hu. apply in_map_iff in Hu. destruct Hu as (m & <- & Hm).
    destruct (FT m Hm) as (A & B & _). apply piece_ok; auto. }
  assert (NM : List.map piece l <> []) by (destruct l; [congruence|discriminate]).
  assert (Ews : words [] t = List.map piece l) by (rewrite Et; apply (words_spaced (List.map piece l)); auto).
  assert (Ecs : 1 + count_spaces t = Z.of_nat (List.length l))
    by (rewrite Et, <- (map_length piece l); apply (count_spaced (List.map piece l)); auto).
  rewrite Ews, Ecs. set (n := Z.of_nat (List.length l)) in *.
  assert (Hn : 0 < n) by (unfold n; destruct l; [congruence|cbn [List.length]; lia]).
  match goal with |- outcome s (?run s1) _ =>
    assert (ER : run s1 = (x <-- (markers <-- alloc (OPts (bnew n)) ;;
       if is_null markers then ret (Null, w, h) else
       m <-- get_pts markers ;;
       r <-- lift (parse_markers atof n (List.map piece l) 0 m) ;;
       let '(marker_idx, m) := r in
       _ <-- put_obj markers (OPts m) ;;
       x <-- (if marker_idx =? 0 then ret (Null, w, h) else
              grayscale_data <-- rgba_to_grayscale (u32 w) (u32 h) p ;;
              if is_null grayscale_data then ret (Null, w, h) else
              result <-- watershed fuel (u32 w) (u32 h) grayscale_data markers marker_idx false ;;
              _ <-- free grayscale_data ;; ret (result, w, h)) ;;
       _ <-- free markers ;; ret x) ;; _ <-- free (Ptr (nxt s)) ;; ret x) s1) end.
  { unfold bindM. destruct (alloc (OPts (bnew n)) s1) as [[q s2]| | |]; [|reflexivity..]. destruct q as [|q]; cbn [is_null]; [reflexivity|].
    destruct (get_pts (Ptr q) s2) as [[m s3]| | |]; [|reflexivity..].
    destruct (lift (parse_markers atof n (List.map piece l) 0 m) s3) as [[[mi mk] s4]| | |]; [|reflexivity..].
    destruct (put_obj (Ptr q) (OPts mk) s4) as [[u s5]| | |]; [|reflexivity..].
    destruct (mi =? 0); [cbn [ret]; destruct (free (Ptr q) s5) as [[u' s6]| | |]; reflexivity|].
    destruct (rgba_to_grayscale (u32 w) (u32 h) p s5) as [[g s6]| | |]; [|reflexivity..].
    destruct g as [|g]; cbn [is_null]; [cbn [ret]; destruct (free (Ptr q) s6) as [[u' s7]| | |]; reflexivity|].
    destruct (watershed fuel (u32 w) (u32 h) (Ptr g) (Ptr q) mi false s6) as [[r s7]| | |]; [|reflexivity..].
    destruct (free (Ptr g) s7) as [[u' s8]| | |]; [|reflexivity..]. cbn [ret].
    destruct (free (Ptr q) s8) as [[u'' s9]| | |]; reflexivity. }
  rewrite ER. clear ER. apply bracket; [exact Pl1|]. pose proof (plus_wf _ _ _ Pl1) as W1. pose proof (plus_holds _ _ _ _ _ Pl1 Hp) as Hp1.
  destruct (orc s1 (tick s1)) eqn:Eor.
  2:{ unfold alloc, bindM. rewrite Eor. cbn [is_null ret]. eexists Null, w, h, _. split; [reflexivity|].
      split; [later_tac W1|]. split; [intros j; reflexivity|]. exists (tick s1). cbn [tick]. split; [lia|exact Eor]. }
  destruct (alloc_plus s1 (OPts (bnew n)) W1 Eor) as (s2 & E2 & Pl2 & M2 & _).
  rewrite (bindM_Ok _ _ _ _ _ E2). cbn [is_null]. set (q := nxt s1) in *.
  assert (EG : get_pts (Ptr q) s2 = Ok (bnew n, s2)) by (unfold get_pts, get_obj, bindM; rewrite M2; reflexivity).
  rewrite (bindM_Ok _ _ _ _ _ EG).
  destruct (parse_markers_ok atof l FT n 0 (bnew n)) as (mk & Em & Lm & _ & Bm); try (unfold n; lia); [simpl; lia|].
  rewrite (bindM_lift _ _ _ _ Em). rewrite Z.add_0_l. fold n.
  assert (EP : put_obj (Ptr q) (OPts mk) s2 = Ok (tt, mkst (upd (mem s2) q (Some (OPts mk))) (nxt s2) (orc s2) (tick s2)))
    by (unfold put_obj; rewrite M2; reflexivity).
  rewrite (bindM_Ok _ _ _ _ _ EP). clear EP EG. set (s3 := mkst _ _ _ _).
  assert (M3 : mem s3 q = Some (OPts mk)) by (unfold s3; cbn [mem]; apply upd_same).
  assert (Pl3 : plus s1 s3 q).
  { destruct Pl2 as (L & Nq & _ & D). split; [|split; [exact Nq|split; [exists (OPts mk); exact M3|]]].
    - destruct L as (W & O & T & Nx). split; [|unfold s3; cbn [orc tick nxt]; auto].
      intros j Hj. unfold s3 in *. cbn [mem nxt] in *. rewrite upd_other; [apply W; exact Hj|]. intros ->. rewrite W in M2; [discriminate|exact Hj].
    - intros j Hj. unfold s3. cbn [mem]. rewrite upd_other by auto. apply D; auto. }
  apply bracket; [exact Pl3|]. pose proof (plus_wf _ _ _ Pl3) as W3. pose proof (plus_holds _ _ _ _ _ Pl3 Hp1) as Hp3.
  replace (n =? 0) with false by lia. rewrite (proj1 (usual_u32 w h HU)), (proj2 (usual_u32 w h HU)).
  eapply outcome_then with (w := w) (h := h).
  - apply (rgba_to_grayscale_ok w h s3 p b); auto using usual_dims.
  - intros s4. reflexivity.
  - intros s4 g gb Pl4 M4 [Xg Gg]. cbn [is_null]. rewrite sized_bracket. apply bracket; [exact Pl4|].
    assert (Hq : holds_pts s4 (Ptr q) mk).
    { exists q. split; [reflexivity|]. destruct Pl4 as (_ & Ng & _ & D4). rewrite D4; [exact M3|congruence]. }
    assert (MR : markers_read atof l mk) by (split; [rewrite Lm; simpl; unfold n; lia|exact Bm]).
    assert (MO : markers_ok w h mk n).
    { split; [lia|]. split; [rewrite Lm; simpl; lia|]. intros i Hi.
      destruct (nth_error l (Z.to_nat i)) as [m|] eqn:En; [|exfalso; apply nth_error_None in En; unfold n in Hi; lia].
      pose proof (Bm _ _ En) as B. rewrite Z2Nat.id in B by lia. rewrite Z.add_0_l in B.
      rewrite Forall_forall in FM. destruct (FM m (nth_error_In _ _ En)) as (F1 & F2 & I). split.
      - exists (atof (fst m)), (atof (snd m)). auto.
      - unfold mx, my. rewrite B. exact I. }
    eapply outcome_weaken.
    + apply outcome_unsized. apply (watershed_regions fuel w h s4 (Ptr g) (Ptr q) gb mk n); auto; try lia.
      * eapply plus_wf; eauto.
      * exists g; auto.
      * apply Xg.
    + intros w' h' b' (-> & -> & L & WA & WB & WC & WD & WE). apply post_same; [exact HU|apply WA|].
      eapply (does_watershed atof o w h b t l mk L); eauto. cbv zeta. fold n. split; [exact WA|]. split; [exact WB|]. split; [exact WC|].
      split; [exact WD|]. eapply watershed_of_ext; [|exact WE]. intros u v [Iu Iv]. unfold pixv. rewrite Gg by auto. reflexivity.
Qed.
End Ops.
