(** * P_Apply2: operations that cannot be carried out, and undefined behaviour *)
From Coq Require Import Reals String.
From Verif Require Import Base BaseLemmas F Heap HeapLemmas Spec Spec_Draw Spec_Cli Spec_Blur Spec_Parse
  M_Color P_Color M_Parse P_Parse M_Cli P_Cli Spec_Corners Spec_Detect M_Detect P_Black M_Apply Spec_Morph Spec_Apply P_ApplyA P_ApplyB P_Apply.
Local Open Scope string_scope.
Local Open Scope list_scope.
Local Open Scope Z_scope.

Ltac start N := unfold apply_operation; rewrite N;
  repeat match goal with |- context [streq (txt ?a) (str ?b)] =>
    let v := eval vm_compute in (streq (txt a) (str b)) in change (streq (txt a) (str b)) with v end;
  cbv iota zeta.

Lemma str_txt n : str n = txt n.
Proof. reflexivity. Qed.

Lemma incomplete_null : forall atof exp atan2 asin pow2 fuel identity o w h s p, incomplete o ->
  apply_operation atof exp atan2 asin pow2 fuel identity o w h p s = Ok (Null, w, h, s).
Proof.
  intros atof exp atan2 asin pow2 fuel identity o w h s p H.
  destruct H as [K|n N I P|N S P|N P|n N I P|N S|N P|N P].
  - unfold apply_operation. cbv zeta.
    repeat match goal with |- context [streq (op_name o) (str ?n)] =>
      let E := fresh in destruct (streq (op_name o) (str n)) eqn:E;
      [exfalso; apply streq_eq in E; rewrite str_txt in E; apply (K n); [cbn; tauto|exact E]|] end.
    reflexivity.
  - destruct I as [<-|[<-|[<-|[<-|[<-|[<-|[]]]]]]]; start N; unfold morph_op; rewrite P; reflexivity.
  - start N. unfold resize_op. rewrite S, P. reflexivity.
  - start N. destruct P as [P|[P|[P|P]]]; rewrite P; cbn [given]; rewrite ?andb_false_r; reflexivity.
  - destruct I as [<-|[<-|[]]]; start N; unfold draw_op; destruct P as [P|[P|[P|P]]]; rewrite P; try reflexivity;
      destruct (op_str o); try reflexivity; cbn [given negb]; rewrite ?orb_true_r; reflexivity.
  - start N. unfold watershed_op. rewrite S. reflexivity.
  - start N. unfold extract_to_op. destruct P as [P|P]; rewrite P; cbn [given negb]; rewrite ?orb_true_r; reflexivity.
  - start N. unfold border_op. destruct P as [P|P]; rewrite P; [reflexivity|]. destruct (op_str o); reflexivity.
Qed.

(** ** Texts that cannot be read *)
Lemma words_sub t : forall cur wd c, In wd (words cur t) -> In c wd -> In c cur \/ In c t.
Proof.
  induction t as [|x t IH]; intros cur wd c H I; cbn [words] in H.
  - destruct cur; [destruct H|]. destruct H as [<-|[]]. left. apply in_rev. exact I.
  - destruct (x =? 32).
    + destruct cur; [|destruct H as [<-|H]; [left; apply in_rev; exact I|]];
        apply (IH _ _ _ H) in I; destruct I as [[]|I]; right; right; exact I.
    + apply (IH _ _ _ H) in I. destruct I as [[->|I]|I]; [right; left; reflexivity|left; exact I|right; right; exact I].
Qed.
Lemma parse_none atof n m : forall toks i, (forall wd, In wd toks -> ~ In LETTER_X wd) -> parse_markers atof n toks i m = Ok (i, m).
Proof.
  induction toks as [|t toks IH]; intros i H; [reflexivity|]. cbn [parse_markers]. destruct (i <? n); [|reflexivity].
  change 120 with LETTER_X. rewrite strchr_none by (apply H; left; reflexivity). apply IH. intros wd Hw. apply H. right. exact Hw.
Qed.

Lemma unreadable_null : forall atof exp atan2 asin pow2 fuel identity o w h s p, wf s -> unreadable o -> orc s (tick s) = true ->
  exists s', apply_operation atof exp atan2 asin pow2 fuel identity o w h p s = Ok (Null, w, h, s') /\ later s s' /\ same_mem s s'.
Proof.
  intros atof exp atan2 asin pow2 fuel identity o w h s p W (t & S & NX & K) OR.
  destruct (alloc_plus s (OBytes (of_list (t ++ [0]))) W OR) as (s1 & E1 & Pl & _).
  destruct K as [[N NP]|N].
  - destruct (free_plus _ _ _ Pl) as (s2 & E2 & L2 & S2 & _). exists s2. split; [|auto].
    start N. unfold resize_op, strdup. rewrite S. unfold bindM at 1 2. rewrite E1. cbn [text_of]. unfold bindM at 1 2. cbn [ret]. rewrite E2.
    unfold resize_factors. change 120 with LETTER_X. change 37 with PERCENT. rewrite strchr_none, has_chr_not by auto. reflexivity.
  - start N. unfold watershed_op, strdup. rewrite S. rewrite (bindM_Ok _ _ _ _ _ E1). cbn [text_of].
    unfold bindM at 1. cbn [ret]. cbv zeta.
    destruct (alloc_cases s1 (OPts (bnew (1 + count_spaces t))) (proj1 (proj1 Pl))) as [[E OF]|[E OT]].
    + rewrite (bindM_Ok _ _ _ _ _ E). cbn [is_null].
      set (s2 := mkst (mem s1) (nxt s1) (orc s1) (Datatypes.S (tick s1))) in *.
      assert (Pl2 : plus s s2 (nxt s)).
      { destruct Pl as ((P1 & P2 & P3 & P4) & P5 & P6 & P7). unfold s2. split; [|cbn [mem]; auto].
        split; [exact P1|]. cbn [orc tick nxt]. repeat split; auto; lia. }
      destruct (free_plus _ _ _ Pl2) as (s3 & E3 & L3 & S3 & _). exists s3. rewrite (bindM_Ok _ _ _ _ _ E3). auto.
    + destruct (alloc_plus s1 (OPts (bnew (1 + count_spaces t))) (proj1 (proj1 Pl)) OT) as (s2 & E2 & Pl2 & M2 & _).
      rewrite (bindM_Ok _ _ _ _ _ E2). cbn [is_null].
      assert (G : get_pts (Ptr (nxt s1)) s2 = Ok (bnew (1 + count_spaces t), s2)).
      { unfold get_pts, bindM, get_obj. rewrite M2. reflexivity. }
      rewrite (bindM_Ok _ _ _ _ _ G). rewrite (bindM_lift _ _ _ _ (parse_none atof _ _ (words [] t) 0 (fun wd Hw I =>
        match words_sub t [] wd _ Hw I with or_introl F => match F with end | or_intror X => NX X end))).
      assert (PU : put_obj (Ptr (nxt s1)) (OPts (bnew (1 + count_spaces t))) s2 =
        Ok (tt, mkst (upd (mem s2) (nxt s1) (Some (OPts (bnew (1 + count_spaces t))))) (nxt s2) (orc s2) (tick s2))).
      { unfold put_obj. rewrite M2. reflexivity. }
      rewrite (bindM_Ok _ _ _ _ _ PU). change (0 =? 0) with true. cbv iota.
      set (s3 := mkst (upd (mem s2) (nxt s1) (Some (OPts (bnew (1 + count_spaces t))))) (nxt s2) (orc s2) (tick s2)) in *.
      assert (Pl3 : plus s1 s3 (nxt s1)).
      { destruct Pl2 as ((P1 & P2 & P3 & P4) & P5 & P6 & P7). unfold s3. split.
        - split; [|cbn [orc tick nxt]; auto]. intros k Hk. cbn [mem nxt] in *. unfold upd. destruct (Z.eqb_spec k (nxt s1)) as [->|]; [|apply P1; exact Hk].
          exfalso. rewrite (P1 _ Hk) in M2. discriminate M2.
        - split; [exact P5|]. cbn [mem]. split; [eexists; apply upd_same|]. intros j Hj. rewrite upd_other by auto. apply P7. exact Hj. }
      destruct (free_plus _ _ _ Pl3) as (s4 & E4 & L4 & S4 & _). rewrite (bindM_Ok _ _ _ _ _ E4).
      assert (Pl4 : plus s s4 (nxt s)).
      { destruct Pl as (P1 & P5 & (ob & P6) & P7). split; [eapply later_trans; eauto|]. split; [exact P5|].
        split; [exists ob; rewrite S4; exact P6|]. intros j Hj. rewrite S4. apply P7. exact Hj. }
      destruct (free_plus _ _ _ Pl4) as (s5 & E5 & L5 & S5 & _). exists s5. rewrite (bindM_Ok _ _ _ _ _ E5). auto.
Qed.

(** ** Undefined behaviour *)
Lemma text_copy_fails : forall atof exp atan2 asin pow2 fuel identity o w h s p,
  copies_text o -> ~ incomplete o -> orc s (tick s) = false ->
  apply_operation atof exp atan2 asin pow2 fuel identity o w h p s = UB NullDeref.
Proof.
  intros atof exp atan2 asin pow2 fuel identity o w h s p [S K] C OF.
  assert (AL : forall t, strdup t s = Ok (Null, mkst (mem s) (nxt s) (orc s) (Datatypes.S (tick s)))).
  { intros t. unfold strdup, alloc. rewrite OF. reflexivity. }
  destruct (op_str o) as [t|] eqn:ES; [|congruence].
  assert (DR : forall draw, (named o "circle" \/ named o "disk") -> draw_op draw o w h p s = UB NullDeref).
  { intros draw N. unfold draw_op. rewrite ES.
    assert (P : op_p1 o <> None /\ op_p2 o <> None /\ op_p3 o <> None).
    { repeat split; intros P; apply C; destruct N as [N|N]; eapply needs_shape; eauto; cbn; auto. }
    destruct P as (P1 & P2 & P3). destruct (op_p1 o), (op_p2 o), (op_p3 o); try congruence. cbn [given negb orb].
    rewrite (bindM_Ok _ _ _ _ _ (AL t)). reflexivity. }
  destruct K as [N|[N|[N|N]]]; start N.
  - unfold resize_op. rewrite ES. unfold bindM at 1. rewrite (bindM_Ok _ _ _ _ _ (AL t)). reflexivity.
  - apply DR; auto.
  - apply DR; auto.
  - unfold watershed_op. rewrite ES. rewrite (bindM_Ok _ _ _ _ _ (AL t)). reflexivity.
Qed.

Lemma shape_big : forall atof exp atan2 asin pow2 fuel identity o w h s p,
  usual w h -> 536870911 < w * h -> named o "circle" \/ named o "disk" -> ~ incomplete o -> orc s (tick s) = true ->
  apply_operation atof exp atan2 asin pow2 fuel identity o w h p s = UB SignedOverflow.
Proof.
  intros atof exp atan2 asin pow2 fuel identity o w h s p (U1 & U2 & U3) B N C OT.
  assert (DR : forall draw, draw_op draw o w h p s = UB SignedOverflow).
  { intros draw. unfold draw_op.
    assert (P : op_str o <> None /\ op_p1 o <> None /\ op_p2 o <> None /\ op_p3 o <> None).
    { repeat split; intros P; apply C; destruct N as [N|N]; eapply needs_shape; eauto; cbn; auto. }
    destruct P as (P0 & P1 & P2 & P3). destruct (op_str o) as [t|]; [|congruence].
    destruct (op_p1 o), (op_p2 o), (op_p3 o); try congruence. cbn [given negb orb].
    assert (AL : exists s1, strdup t s = Ok (Ptr (nxt s), s1)).
    { unfold strdup, alloc. rewrite OT. eexists. reflexivity. }
    destruct AL as (s1 & AL). rewrite (bindM_Ok _ _ _ _ _ AL). cbn [text_of]. unfold bindM at 1. cbn [ret]. cbv zeta.
    unfold bindM at 1. unfold copy_int. unfold bindM at 1. unfold lift at 1.
    assert (E1 : ck32 (w * h) = Ok (w * h)) by (apply ck32_ok; unfold INT_MIN, INT_MAX; lia).
    rewrite E1. unfold bindM at 1. unfold lift at 1.
    assert (E2 : ck32 (w * h * 4) = UB SignedOverflow).
    { unfold ck32. destruct ((INT_MIN <=? w * h * 4) && (w * h * 4 <=? INT_MAX)) eqn:E; [|reflexivity]. apply andb_prop in E as [_ E]. apply Z.leb_le in E. unfold INT_MAX in E. lia. }
    rewrite E2. reflexivity. }
  destruct N as [N|N]; start N; apply DR.
Qed.

Lemma to_u32_bad x : dfinite x = true -> ~ is_u32 (int_part x) -> to_u32 x = UB BadCast.
Proof.
  intros F I. unfold to_u32, cast_int. unfold dfinite in F. rewrite F. cbv zeta. unfold int_part, is_u32 in I.
  destruct ((0 <=? Btrunc x) && (Btrunc x <=? 4294967295)) eqn:E; [lia|reflexivity].
Qed.
Lemma to_i32_bad x : dfinite x = true -> ~ is_i32 (int_part x) -> to_i32 x = UB BadCast.
Proof.
  intros F I. unfold to_i32, cast_int. unfold dfinite in F. rewrite F. cbv zeta. unfold int_part, is_i32 in I.
  destruct ((INT_MIN <=? Btrunc x) && (Btrunc x <=? INT_MAX)) eqn:E; [unfold INT_MIN, INT_MAX in E; lia|reflexivity].
Qed.

Lemma number_too_big : forall atof exp atan2 asin pow2 fuel identity o w h s p b x,
  usual w h -> wf s -> holds s p b -> image (w * h * 4) b -> (forall n, orc s n = true) -> ~ incomplete o ->
  op_p1 o = Some x -> dfinite x = true ->
  (named o "border" \/ named o "extract_document_to") /\ ~ is_u32 (int_part x) \/
  (named o "erode" \/ named o "dilate" \/ named o "close" \/ named o "open" \/ named o "rotate" \/ named o "crop") /\ ~ is_i32 (int_part x) ->
  apply_operation atof exp atan2 asin pow2 fuel identity o w h p s = UB BadCast.
Proof.
  intros atof exp atan2 asin pow2 fuel identity o w h s p b x U W Hp Hb OT C P1 F H.
  assert (MO : ~ is_i32 (int_part x) -> forall m, morph_op m o w h p s = UB BadCast).
  { intros I m. unfold morph_op. rewrite P1. rewrite (proj1 (usual_u32 w h U)), (proj2 (usual_u32 w h U)).
    destruct (rgba_to_grayscale_ok w h s p b W (usual_dims _ _ U) Hp Hb) as (q & s1 & E & L & K).
    rewrite (bindM_Ok _ _ _ _ _ E). destruct q as [|q].
    - destruct K as [_ (n & _ & K)]. rewrite OT in K. discriminate K.
    - cbn [is_null]. unfold bindM at 1, lift at 1. rewrite to_i32_bad by auto. reflexivity. }
  destruct H as [[N I]|[N I]].
  - destruct N as [N|N]; start N.
    + unfold border_op. rewrite P1. destruct (op_str o) eqn:ES; [|exfalso; apply C; apply needs_border; auto].
      unfold bindM at 1, lift at 1. rewrite to_u32_bad by auto. reflexivity.
    + unfold extract_to_op. rewrite P1. destruct (op_p2 o) eqn:E2; [|exfalso; apply C; apply needs_size; auto].
      cbn [given negb orb num]. unfold bindM at 1, lift at 1. rewrite to_u32_bad by auto. reflexivity.
  - destruct N as [N|[N|[N|[N|[N|N]]]]]; start N; auto.
    + rewrite P1. unfold rotate_op. cbn [given negb num]. unfold bindM at 1, lift at 1. rewrite to_i32_bad by auto. reflexivity.
    + rewrite P1. destruct (op_p2 o) eqn:E2; [|exfalso; apply C; apply needs_rectangle; auto].
      destruct (op_p3 o) eqn:E3; [|exfalso; apply C; apply needs_rectangle; auto].
      destruct (op_p4 o) eqn:E4; [|exfalso; apply C; apply needs_rectangle; auto].
      unfold crop_op. cbn [given negb num andb]. unfold bindM at 1, lift at 1. rewrite to_i32_bad by auto. reflexivity.
Qed.

Lemma corners_black : forall atof exp atan2 asin pow2 fuel identity o w h s p b,
  exp_ok exp -> atan2_ok atan2 -> 66565 < Z.of_nat fuel ->
  usual w h -> wf s -> holds s p b -> image (w * h * 4) b -> (forall n, orc s n = true) -> all_black w h b ->
  named o "detect_corners" \/ named o "draw_corners" \/ named o "extract_document" \/
  named o "extract_document_to" /\ (exists x y, op_p1 o = Some x /\ op_p2 o = Some y /\ dfinite x = true /\ dfinite y = true /\
    is_u32 (int_part x) /\ is_u32 (int_part y)) ->
  exists u, apply_operation atof exp atan2 asin pow2 fuel identity o w h p s = UB u.
Proof.
  intros atof exp atan2 asin pow2 fuel identity o w h s p b He Ha Hf U W Hp Hb OT D N. pose proof U as (U1 & U2 & U3).
  destruct (detect_black exp atan2 asin fuel w h s p b He Ha ltac:(lia) ltac:(lia) U3 Hf W Hp Hb OT D) as (u & E).
  exists u. assert (E0 : is_null p = false) by (destruct Hp as (i & -> & _); reflexivity).
  assert (S1 : s32 w = w /\ s32 h = h).
  { split; [apply s32_cli|apply s32_cli]; lia. }
  destruct S1 as [S1 S2].
  destruct N as [N|[N|[N|[N (x & y & P1 & P2 & F1 & F2 & I1 & I2)]]]]; start N.
  - unfold detect_op, bindM at 1. rewrite E. reflexivity.
  - unfold draw_corners_op, bindM at 1. rewrite E. reflexivity.
  - unfold extract_auto_op, bindM at 1. unfold extract_document_auto. rewrite E0. unfold bindM at 1.
    rewrite (proj1 (usual_u32 w h U)), (proj2 (usual_u32 w h U)), S1, S2, E. reflexivity.
  - unfold extract_to_op. rewrite P1, P2. cbn [given negb orb num].
    rewrite (bindM_lift _ _ _ _ (to_u32_ok x F1 I1)), (bindM_lift _ _ _ _ (to_u32_ok y F2 I2)).
    unfold bindM at 1. unfold extract_document. rewrite E0. unfold bindM at 1.
    rewrite (proj1 (usual_u32 w h U)), (proj2 (usual_u32 w h U)), S1, S2, E. reflexivity.
Qed.
