(** * P_Apply: every operation, pipelines of operations *)
From Coq Require Import Reals String.
From Verif Require Import Base BaseLemmas F Heap HeapLemmas Spec Spec_Draw Spec_Cli Spec_Blur Spec_Parse
  M_Color M_Parse P_Parse M_Cli P_Cli M_Detect M_Apply Spec_Morph Spec_Apply P_ApplyA P_ApplyB.
Local Open Scope string_scope.
Local Open Scope list_scope.
Local Open Scope Z_scope.

Lemma operation_ok : forall atof exp atan2 asin pow2 fuel identity o w h s p b,
  exp_ok exp -> 1073741825 < Z.of_nat fuel -> usual w h -> wf s -> holds s p b -> image (w * h * 4) b ->
  fits atof o w h b -> (copies_text o -> orc s (tick s) = true) ->
  Spec_Trim.returns_sized s (apply_operation atof exp atan2 asin pow2 fuel identity o w h p s) (fun w' h' b' =>
    usual w' h' /\ exact_image (w' * h' * 4) b' /\ effect atof o w h b w' h' b').
Proof.
  intros atof exp atan2 asin pow2 fuel identity o w h s p b He Hf U W Hp Hb F CT.
  change (outcome s (apply_operation atof exp atan2 asin pow2 fuel identity o w h p s) (post atof o w h b)).
  assert (CT' : forall n, named o n -> In n ["resize"; "circle"; "disk"; "watershed"] -> op_str o <> None -> orc s (tick s) = true).
  { intros n N I S. apply CT. split; [exact S|]. destruct I as [<-|[<-|[<-|[<-|[]]]]]; auto. }
  destruct F as [n N I|r N P1 Fr Hr|rx ry N A Fx Fy Hs|n N I Hs|n t hex r cx cy N I St FW P1 P2 P3 DO Hs|t l N St MT Hl FM
    |x y cw ch N P1 P2 P3 P4 F1 F2 F3 F4 I1 I2 I3 I4 B1 B2 B3 B4|a k N P1 F1 I1 E|pct N A Fp|N Hc|hex x N Sx P1 F1 Hx Hs|n r N I P1 Fr Hr].
  - destruct I as [<-|[<-|[<-|[<-|[<-|[]]]]]].
    + apply do_grayscale; auto.
    + apply do_threshold; auto.
    + apply do_sobel; auto.
    + apply do_flip_x; auto.
    + apply do_flip_y; auto.
  - eapply do_blur; eauto.
  - eapply do_resize; eauto. apply (CT' "resize"); cbn; auto.
  - destruct I as [<-|[<-|[]]]; [apply do_smart|apply do_smooth]; auto.
  - assert (S : op_str o <> None) by congruence.
    destruct I as [<-|[<-|[]]]; [eapply do_circle|eapply do_disk]; eauto; eapply CT'; eauto; cbn; auto.
  - eapply do_watershed; eauto. apply (CT' "watershed"); cbn; auto. congruence.
  - eapply do_crop; eauto.
  - eapply do_rotate; eauto.
  - eapply do_trim; eauto.
  - apply do_histogram; auto.
  - eapply do_border; eauto.
  - destruct I as [<-|[<-|[<-|[<-|[]]]]]; [eapply do_erode|eapply do_dilate|eapply do_close|eapply do_open]; eauto.
Qed.

(** ** Pipelines whose operations suit the pictures they get *)
Section pipe.
Context {op : Type} (app : op -> Z -> Z -> ptr -> M (ptr * Z * Z)).
Context (G : (nat -> bool) -> Prop) (rd : list op -> Z -> Z -> buf Z -> Prop) (R : op -> Z -> Z -> buf Z -> Z -> Z -> buf Z -> Prop).
Hypothesis step : forall o t w h s p b, wf s -> G (orc s) -> holds s p b -> rd (o :: t) w h b ->
  Spec_Trim.returns_sized s (app o w h p s) (fun w' h' b' => rd t w' h' b' /\ R o w h b w' h' b').

Lemma loop_mid (ops : list op) :
  forall w h i t s b, wf s -> G (orc s) -> mem s t = Some (OBytes b) -> rd ops w h b -> t <> i -> mem s i <> None ->
  exists q w' h' s', pipeline_loop app ops w h (Ptr t) (Ptr t) (Ptr i) s = Ok (q, w', h', s') /\ later s s' /\
    match q with
    | Null => alloc_failed s s' /\ mem s' t = None /\ forall j, j <> t -> mem s' j = mem s j
    | Ptr j => (j = t \/ mem s j = None /\ mem s' t = None) /\
               (exists b', mem s' j = Some (OBytes b') /\ rd [] w' h' b' /\ composed R ops w h b w' h' b') /\
               (forall k, k <> t -> k <> j -> mem s' k = mem s k)
    end.
Proof.
  induction ops as [|o ops IH]; intros w h i t s b Hwf HG Ht HI Nt Li.
  - exists (Ptr t), w, h, s. split; [reflexivity|]. split; [apply later_refl; auto|].
    split; [auto|]. split; [|auto]. exists b. split; [auto|]. split; [auto|]. cbn. auto.
  - cbn [pipeline_loop].
    destruct (step o ops w h s (Ptr t) b Hwf HG ltac:(exists t; auto) HI) as (q & w1 & h1 & s1 & E & L & H).
    rewrite (bindM_Ok _ _ _ _ _ E).
    assert (FT : forall (s2 : st) ob, mem s2 t = Some ob ->
      free_temp (Ptr t) (Ptr i) s2 = Ok (tt, mkst (upd (mem s2) t None) (nxt s2) (orc s2) (tick s2))).
    { intros s2 ob Hs2. unfold free_temp. cbn [is_null ptr_eqb negb andb]. replace (t =? i) with false by lia.
      cbn [negb]. cbv iota. eapply free_ok; eauto. }
    destruct q as [|q].
    + change (is_null Null) with true. cbv iota. destruct H as [H HA].
      rewrite (bindM_Ok _ _ _ _ _ (FT s1 _ (eq_trans (H t) Ht))).
      exists Null, w1, h1, (mkst (upd (mem s1) t None) (nxt s1) (orc s1) (tick s1)).
      split; [reflexivity|]. split; [apply later_upd; auto|]. cbn [mem]. split; [exact HA|]. split; [apply upd_same|].
      intros j Hj. rewrite upd_other by auto. apply H.
    + change (is_null (Ptr q)) with false. cbv iota.
      destruct H as (A & (b1 & B & I1 & R1) & D).
      assert (Nqt : t <> q) by congruence.
      assert (Nqi : q <> i) by congruence.
      assert (Mt : mem s1 t = Some (OBytes b)) by (rewrite D by auto; auto).
      rewrite (bindM_Ok _ _ _ _ _ (FT s1 _ Mt)).
      set (s2 := mkst (upd (mem s1) t None) (nxt s1) (orc s1) (tick s1)).
      assert (L2 : later s s2) by (apply later_upd; auto).
      assert (W2 : wf s2) by apply L2.
      assert (G2 : G (orc s2)) by (destruct L2 as (_ & -> & _); exact HG).
      assert (M2q : mem s2 q = Some (OBytes b1)) by (cbn [mem s2]; rewrite upd_other by auto; auto).
      assert (M2 : forall j, j <> t -> j <> q -> mem s2 j = mem s j)
        by (intros j J1 J2; cbn [mem s2]; rewrite upd_other by auto; apply D; auto).
      assert (M2t : mem s2 t = None) by (cbn [mem s2]; apply upd_same).
      destruct (IH w1 h1 i q s2 b1 W2 G2 M2q I1 Nqi) as (r & w3 & h3 & s3 & E3 & L3 & H3).
      { rewrite M2 by auto. exact Li. }
      exists r, w3, h3, s3. split; [exact E3|].
      split; [eapply later_trans; eauto|].
      destruct r as [|j].
      * destruct H3 as [(n & Hn & Fn) [X Y]]. split.
        { exists n. destruct L2 as (_ & O2 & T2 & _). rewrite <- O2. split; [lia|exact Fn]. }
        split; [rewrite Y by auto; exact M2t|].
        intros k Hk. destruct (Z.eq_dec k q) as [->|Nk]; [rewrite X; symmetry; exact A|]. rewrite Y by auto. apply M2; auto.
      * destruct H3 as (X & (b3 & B3 & I3 & R3) & Y).
        destruct X as [-> | [X1 X2]].
        -- split; [right; split; [exact A|rewrite Y by auto; exact M2t]|].
           split; [exists b3; split; [exact B3|]; split; [exact I3|]; exists w1, h1, b1; auto|].
           intros k K1 K2. rewrite Y by auto. apply M2; auto.
        -- assert (Hj : j <> q) by congruence.
           split.
           { destruct (Z.eq_dec j t) as [Ej|Nj]; [left; exact Ej|right]. split; [rewrite <- M2 by auto; exact X1|].
             rewrite Y by auto. exact M2t. }
           split; [exists b3; split; [exact B3|]; split; [exact I3|]; exists w1, h1, b1; auto|].
           intros k K1 K2. destruct (Z.eq_dec k q) as [->|Nk]; [rewrite X2; symmetry; exact A|].
           rewrite Y by auto. apply M2; auto.
Qed.

Lemma pipeline_run (ops : list op) : ops <> [] ->
  forall w h i s b, wf s -> G (orc s) -> mem s i = Some (OBytes b) -> rd ops w h b ->
  Spec_Trim.returns_sized s (execute_pipeline app w h ops (Ptr i) s) (fun w' h' b' =>
    rd [] w' h' b' /\ composed R ops w h b w' h' b').
Proof.
  intros Hne w h i s b Hwf HG Hi HI. unfold execute_pipeline. destruct ops as [|o ops]; [congruence|].
  cbn [pipeline_loop].
  destruct (step o ops w h s (Ptr i) b Hwf HG ltac:(exists i; auto) HI) as (q & w1 & h1 & s1 & E & L & H).
  rewrite (bindM_Ok _ _ _ _ _ E). destruct q as [|q].
  - exists Null, w1, h1, s1. split; [reflexivity|]. auto.
  - change (is_null (Ptr q)) with false. cbv iota.
    destruct H as (A & (b1 & B & I1 & R1) & D).
    assert (Nqi : q <> i) by congruence.
    assert (G1 : G (orc s1)) by (destruct L as (_ & -> & _); exact HG).
    destruct (loop_mid ops w1 h1 i q s1 b1 (proj1 L) G1 B I1 Nqi) as (r & w3 & h3 & s3 & E3 & L3 & H3).
    { rewrite D by auto. congruence. }
    exists r, w3, h3, s3. split; [exact E3|]. split; [eapply later_trans; eauto|].
    destruct r as [|j].
    + destruct H3 as [(n & Hn & Fn) [X Y]]. split.
      * intros k. destruct (Z.eq_dec k q) as [->|Nk]; [congruence|]. rewrite Y by auto. apply D; auto.
      * exists n. destruct L as (_ & O2 & T2 & _). rewrite <- O2. split; [lia|exact Fn].
    + destruct H3 as (X & (b3 & B3 & I3 & R3) & Y).
      assert (C : composed R (o :: ops) w h b w3 h3 b3) by (exists w1, h1, b1; auto).
      destruct X as [-> | [X1 X2]].
      * split; [exact A|]. split; [exists b3; auto|]. intros k Hk. rewrite Y by auto. apply D; auto.
      * assert (Hj : j <> q) by congruence. split; [rewrite <- D by auto; exact X1|].
        split; [exists b3; auto|]. intros k Hk. destruct (Z.eq_dec k q) as [->|Nk]; [congruence|].
        rewrite Y by auto. apply D; auto.
Qed.
End pipe.

Lemma pipeline_all : forall atof exp atan2 asin pow2 fuel identity ops w h s i b,
  exp_ok exp -> 1073741825 < Z.of_nat fuel -> usual w h -> wf s -> mem s i = Some (OBytes b) -> image (w * h * 4) b ->
  ops <> [] -> ready atof ops w h b -> text_memory ops (orc s) ->
  Spec_Trim.returns_sized s (execute_pipeline (apply_operation atof exp atan2 asin pow2 fuel identity) w h ops (Ptr i) s)
    (fun w' h' b' => usual w' h' /\ exact_image (w' * h' * 4) b' /\ composed (effect atof) ops w h b w' h' b').
Proof.
  intros atof exp atan2 asin pow2 fuel identity ops w h s i b He Hf U W Mi Hb Hne RD TM.
  (* the last operation makes an exact picture *)
  assert (G : forall ops0, ops0 <> [] -> forall w h i s b, usual w h -> wf s -> mem s i = Some (OBytes b) -> image (w * h * 4) b ->
    ready atof ops0 w h b -> text_memory ops0 (orc s) ->
    Spec_Trim.returns_sized s (execute_pipeline (apply_operation atof exp atan2 asin pow2 fuel identity) w h ops0 (Ptr i) s)
      (fun w' h' b' => (usual w' h' /\ image (w' * h' * 4) b' /\ (ops0 <> [] -> exact_image (w' * h' * 4) b')) /\ composed (effect atof) ops0 w h b w' h' b')).
  { clear - He Hf. intros ops0 Hne w h i s b U W Mi Hb RD TM.
    pose (rd := fun (t : list pipeline_op) w h b => usual w h /\ image (w * h * 4) b /\ ((List.length t < List.length ops0)%nat -> exact_image (w * h * 4) b) /\
      ready atof t w h b /\ incl t ops0).
    pose proof (@pipeline_run pipeline_op (apply_operation atof exp atan2 asin pow2 fuel identity) (text_memory ops0) rd (effect atof)) as P.
    assert (ST : forall o t w h s p b, wf s -> text_memory ops0 (orc s) -> holds s p b -> rd (o :: t) w h b ->
      Spec_Trim.returns_sized s (apply_operation atof exp atan2 asin pow2 fuel identity o w h p s) (fun w' h' b' => rd t w' h' b' /\ effect atof o w h b w' h' b')).
    { clear - He Hf. intros o t w h s p b W TM Hp (U & I & _ & (F & N) & IC).
      eapply outcome_weaken; [apply (operation_ok atof exp atan2 asin pow2 fuel identity o w h s p b); auto|].
      - intros C. apply (TM o); [apply IC; left; reflexivity|exact C].
      - intros w' h' b' (U' & X' & Ef). split; [|exact Ef]. split; [exact U'|]. split; [apply X'|]. split; [intros _; exact X'|].
        split; [apply N; exact Ef|]. intros x Hx. apply IC. right. exact Hx. }
    specialize (P ST ops0 Hne w h i s b W TM Mi).
    eapply outcome_weaken; [apply P|].
    - split; [exact U|]. split; [exact Hb|]. split; [intros K; lia|]. split; [exact RD|]. intros x Hx; exact Hx.
    - intros w' h' b' ((U' & I' & X' & _) & C). split; [|exact C]. split; [exact U'|]. split; [exact I'|].
      intros _. apply X'. destruct ops0; [congruence|cbn [List.length]; lia]. }
  eapply outcome_weaken; [apply (G ops Hne w h i s b); auto|].
  intros w' h' b' ((U' & _ & X') & C). auto.
Qed.
