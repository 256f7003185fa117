From Coq Require Import Reals String.
From Verif Require Import Base BaseLemmas F Heap Spec M_Parse M_Cli M_Apply Spec_Blur Spec_Draw Spec_Cli Spec_Parse Spec_Apply P_Apply Spec_Rel Spec_Seq P_Rel P_Seq Spec_SeqCli.
From Verif Require Import M_Exif M_Main Spec_Main P_Main.
From Verif Require Import Spec_Morph.
Local Open Scope string_scope.
Local Open Scope list_scope.
Local Open Scope Z_scope.

Definition moved (p : pose) (w h : Z) (b : buf Z) (w1 h1 : Z) (b1 : buf Z) : Prop :=
  w1 = pw p w h /\ h1 = ph p w h /\
  forall x y c, inside w1 h1 x y -> 0 <= c < 4 -> pix b1 w1 4 x y c = pix b w 4 (px p w h x y) (py p w h x y) c.


(** Composition of poses *)
Definition comp (p q : pose) : pose :=
  mkpose (xorb (sw p) (sw q)) (xorb (mx p) (if sw p then my q else mx q)) (xorb (my p) (if sw p then mx q else my q)).
Lemma comp_size p q w h : pw (comp p q) w h = pw q (pw p w h) (ph p w h) /\ ph (comp p q) w h = ph q (pw p w h) (ph p w h).
Proof. destruct p as [[] [] []], q as [[] [] []]; split; reflexivity. Qed.
Lemma comp_px p q w h x y : px p w h (px q (pw p w h) (ph p w h) x y) (py q (pw p w h) (ph p w h) x y) = px (comp p q) w h x y /\
  py p w h (px q (pw p w h) (ph p w h) x y) (py q (pw p w h) (ph p w h) x y) = py (comp p q) w h x y.
Proof. destruct p as [[] [] []], q as [[] [] []]; unfold px, py, pw, ph; cbn; lia. Qed.
Lemma comp_then p q o : comp p (then_ q o) = then_ (comp p q) o.
Proof. destruct p as [[] [] []], q as [[] [] []], o; reflexivity. Qed.
Lemma comp_fold os : forall p q, fold_left then_ os (comp p q) = comp p (fold_left then_ os q).
Proof. induction os as [|o os IH]; intros p q; cbn; auto. rewrite <- IH, comp_then. reflexivity. Qed.
Lemma pose_app os os' : pose_after (os ++ os') = comp (pose_after os) (pose_after os').
Proof.
  unfold pose_after. rewrite fold_left_app, <- comp_fold. f_equal. generalize (fold_left then_ os (mkpose false false false)). intros [[] [] []]; reflexivity.
Qed.

Lemma moved_comp p q w h b w1 h1 b1 w2 h2 b2 : moved p w h b w1 h1 b1 -> moved q w1 h1 b1 w2 h2 b2 -> moved (comp p q) w h b w2 h2 b2.
Proof.
  intros (-> & -> & V) (-> & -> & V'). destruct (comp_size p q w h) as [E1 E2]. split; [auto|]. split; [auto|].
  intros x y c IN Hc. rewrite V' by auto. rewrite V; [|now apply px_inside|auto]. destruct (comp_px p q w h x y) as [-> ->]. reflexivity.
Qed.

Lemma right_turns k : 0 <= k < 4 -> pose_after (repeat Right_turn (Z.to_nat k)) =
  (if k =? 0 then mkpose false false false else if k =? 1 then mkpose true false true else if k =? 2 then mkpose false true true else mkpose true true false).
Proof. intros H. assert (k = 0 \/ k = 1 \/ k = 2 \/ k = 3) as [->|[->|[->| ->]]] by lia; reflexivity. Qed.

Lemma turned_moved k w h b w1 h1 b1 : turned k w h b w1 h1 b1 -> moved (pose_after (repeat Right_turn (Z.to_nat (k mod 4)))) w h b w1 h1 b1.
Proof.
  intros (_ & K0 & K1 & K2 & K3). pose proof (Z.mod_pos_bound k 4 ltac:(lia)) as B. rewrite right_turns by auto.
  assert (k mod 4 = 0 \/ k mod 4 = 1 \/ k mod 4 = 2 \/ k mod 4 = 3) as [E|[E|[E|E]]] by lia; rewrite E; cbn [Z.eqb Pos.eqb].
  - destruct (K0 E) as (-> & -> & V). split; [reflexivity|]. split; [reflexivity|]. intros x y c [Hx Hy] Hc. cbn. now apply V.
  - destruct (K1 E) as (-> & -> & V). split; [reflexivity|]. split; [reflexivity|]. intros x y c [Hx Hy] Hc. unfold px, py; cbn.
    rewrite <- (V y (h - 1 - x) c) by lia. f_equal; lia.
  - destruct (K2 E) as (-> & -> & V). split; [reflexivity|]. split; [reflexivity|]. intros x y c [Hx Hy] Hc. unfold px, py; cbn.
    rewrite <- (V (w - 1 - x) (h - 1 - y) c) by lia. f_equal; lia.
  - destruct (K3 E) as (-> & -> & V). split; [reflexivity|]. split; [reflexivity|]. intros x y c [Hx Hy] Hc. unfold px, py; cbn.
    rewrite (V x y c) by lia. reflexivity.
Qed.

Lemma names_differ o n n' : named o n -> named o n' -> txt n <> txt n' -> False.
Proof. unfold named. congruence. Qed.

Lemma effect_moved atof o ts w h b w1 h1 b1 : stands_for o ts -> effect atof o w h b w1 h1 b1 -> moved (pose_after ts) w h b w1 h1 b1.
Proof.
  intros S E. destruct S as [N|N|a k N Ha Hf Hi Hk].
  - destruct E; try (exfalso; eapply names_differ; [exact N|eassumption|vm_compute; discriminate]).
    split; [reflexivity|]. split; [reflexivity|]. intros x y c IN Hc. unfold px, py; cbn. auto.
  - destruct E; try (exfalso; eapply names_differ; [exact N|eassumption|vm_compute; discriminate]).
    split; [reflexivity|]. split; [reflexivity|]. intros x y c IN Hc. unfold px, py; cbn. auto.
  - destruct E; try (exfalso; eapply names_differ; [exact N|eassumption|vm_compute; discriminate]).
    assert (k0 = k) by (assert (a0 = a) by congruence; subst; lia). subst k0. now apply turned_moved.
Qed.

Lemma composed_moved atof ops : forall ts w h b w1 h1 b1, Forall2 stands_for ops ts -> composed (effect atof) ops w h b w1 h1 b1 ->
  same_bytes (w * h * 4) b b -> moved (pose_after (concat ts)) w h b w1 h1 b1.
Proof.
  induction ops as [|o ops IH]; intros ts w h b w1 h1 b1 F Cm _; inversion F; subst; cbn [concat composed] in *.
  - destruct Cm as (-> & -> & ->). split; [reflexivity|]. split; [reflexivity|]. intros x y c _ _. reflexivity.
  - destruct Cm as (w0 & h0 & b0 & E & Cm). rewrite pose_app. eapply moved_comp; [eapply effect_moved; eauto|]. eapply IH; eauto. intros i _. reflexivity.
Qed.

Lemma stands_fits atof o ts w h b : stands_for o ts -> fits atof o w h b.
Proof.
  intros [N|N|a k N Ha Hf Hi Hk].
  - eapply fit_plain; [exact N|]. cbn; auto.
  - eapply fit_plain; [exact N|]. cbn; auto 6.
  - eapply fit_rotate; eauto.
Qed.
Lemma stands_ready atof ops : forall ts w h b, Forall2 stands_for ops ts -> ready atof ops w h b.
Proof.
  induction ops as [|o ops IH]; intros ts w h b F; inversion F; subst; cbn; auto. split; [eapply stands_fits; eauto|]. intros. eapply IH; eauto.
Qed.
Lemma stands_text ops ts orc : Forall2 stands_for ops ts -> text_memory ops orc.
Proof.
  intros F o Hin (_ & Hn). exfalso. induction F as [|o' t l l' S F IH]; cbn in Hin; [tauto|]. destruct Hin as [->|Hin]; [|tauto].
  destruct S as [N|N|a k N _ _ _ _]; destruct Hn as [Hn|[Hn|[Hn|Hn]]]; (eapply names_differ; [exact N|exact Hn|vm_compute; discriminate]).
Qed.

Lemma pipeline_laid : forall atof exp atan2 asin pow2 fuel identity ops ts w h s i b,
  exp_ok exp -> 1073741825 < Z.of_nat fuel -> usual w h -> wf s -> mem s i = Some (OBytes b) -> image (w * h * 4) b ->
  ops <> [] -> Forall2 stands_for ops ts ->
  Spec_Trim.returns_sized s (execute_pipeline (apply_operation atof exp atan2 asin pow2 fuel identity) w h ops (Ptr i) s)
    (fun w' h' b' => exact_image (w' * h' * 4) b' /\ laid (sheet_after (concat ts)) w h b w' h' b').
Proof.
  intros atof exp atan2 asin pow2 fuel identity ops ts w h s i b He Hf U W Mi Im Hne F.
  destruct (pipeline_all atof exp atan2 asin pow2 fuel identity ops w h s i b He Hf U W Mi Im Hne (stands_ready atof ops ts w h b F) (stands_text ops ts (orc s) F))
    as (p & w' & h' & s' & E & L & K).
  exists p, w', h', s'. split; [exact E|]. split; [exact L|]. destruct p as [|q]; [exact K|]. destruct K as (K1 & (b' & K2 & _ & K3 & K4) & K5).
  split; [exact K1|]. split; [|exact K5]. exists b'. split; [exact K2|]. split; [exact K3|].
  destruct (composed_moved atof ops ts w h b w' h' b' F K4 (fun i _ => eq_refl)) as (E1 & E2 & V). rewrite <- pose_sheet. now apply laid_pose.
Qed.

Lemma by_tag_none o : o < 2 \/ 8 < o -> by_tag o = [].
Proof.
  intros H. unfold by_tag. destruct o as [|p|p]; try reflexivity.
  do 4 (try match goal with q : positive |- _ => destruct q; try reflexivity; try lia end).
Qed.
Lemma seen_moved o w h b w1 h1 b1 : seen o w h b w1 h1 b1 -> moved (pose_after (by_tag o)) w h b w1 h1 b1.
Proof.
  intros [[Ho (r & c & R & S & _ & V)]|(Ho & -> & -> & ->)].
  2: { rewrite by_tag_none by auto. split; [reflexivity|]. split; [reflexivity|]. intros x y c _ _. reflexivity. }
  assert (o = 2 \/ o = 3 \/ o = 4 \/ o = 5 \/ o = 6 \/ o = 7 \/ o = 8) as C by lia.
  destruct C as [->|[->|[->|[->|[->|[->| ->]]]]]]; cbn in R; injection R as <- <-; cbn in S; injection S as -> ->;
    (split; [reflexivity|]; split; [reflexivity|]; intros x y k [Hx Hy] Hk; unfold px, py, inside in *; cbn [pose_after by_tag fold_left then_ sw mx my xorb];
     cbn [upright_pos fst snd] in V).
  - rewrite <- (V (w - 1 - x) y k) by lia. f_equal; cbn; lia.
  - rewrite <- (V (w - 1 - x) (h - 1 - y) k) by lia. f_equal; cbn; lia.
  - rewrite <- (V x (h - 1 - y) k) by lia. f_equal; cbn; lia.
  - rewrite <- (V y x k) by lia. f_equal; cbn; lia.
  - rewrite <- (V y (h - 1 - x) k) by lia. f_equal; cbn; lia.
  - rewrite <- (V (w - 1 - y) (h - 1 - x) k) by lia. f_equal; cbn; lia.
  - rewrite <- (V (w - 1 - y) x k) by lia. f_equal; cbn; lia.
Qed.

Lemma program_laid : forall atof atoi show2 exp atan2 asin pow2 fuel identity file decode can_write input wds output ops ts w h b o s,
  exp_ok exp -> 1073741825 < Z.of_nat fuel -> wf s -> wds <> [] ->
  parse_pipeline atof atoi show2 true wds = Ok (Some ops) -> ops <> [] -> Forall2 stands_for ops ts ->
  decode (file input) = Some (w, h, b) -> usual w h -> image (w * h * 4) b ->
  (jpeg_in input -> get_exif_orientation fuel (file input) = Ok o) -> (~ jpeg_in input -> o = 1) ->
  (2 <= o <= 8 -> forall n, orc s n = true) ->
  exists code out s',
    main atof atoi show2 exp atan2 asin pow2 fuel identity file decode can_write (input :: wds ++ [output]) s = Ok ((code, out), s') /\
    later s s' /\ same_mem s s' /\
    match out with
    | None => code = 1 /\ alloc_failed s s'
    | Some f => code = (if can_write f then 0 else 1) /\ w_path f = output /\
        exact_image (w_width f * w_height f * 4) (w_data f) /\
        laid (sheet_after (by_tag o ++ concat ts)) w h b (w_width f) (w_height f) (w_data f)
    end.
Proof.
  intros atof atoi show2 exp atan2 asin pow2 fuel identity file decode can_write input wds output ops ts w h b o s He Hf W Hw P Hne F Dc U I J1 J2 Hm.
  destruct (main_ok atof atoi show2 exp atan2 asin pow2 fuel identity file decode can_write input wds output ops w h b o s He Hf W Hw P Hne Dc U I J1 J2
    (fun w1 h1 b1 _ => stands_ready atof ops ts w1 h1 b1 F) (stands_text ops ts (orc s) F) Hm) as (code & out & s' & E & L & SM & K).
  exists code, out, s'. split; [exact E|]. split; [exact L|]. split; [exact SM|]. destruct out as [f|]; [|exact K].
  destruct K as (K1 & K2 & _ & _ & K5 & w1 & h1 & b1 & Se & Cm). split; [exact K1|]. split; [exact K2|]. split; [exact K5|].
  pose proof (composed_moved atof ops ts w1 h1 b1 _ _ _ F Cm (fun i _ => eq_refl)) as M2.
  destruct (moved_comp _ _ _ _ _ _ _ _ _ _ _ (seen_moved _ _ _ _ _ _ _ Se) M2) as (E1 & E2 & V).
  rewrite <- pose_app in E1, E2, V. rewrite <- pose_sheet. now apply laid_pose.
Qed.
