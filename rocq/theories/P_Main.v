(** * P_Main: the program as a whole *)
From Coq Require Import Reals String.
From Verif Require Import Base BaseLemmas F Heap HeapLemmas Spec Spec_Draw Spec_Cli Spec_Resize P_Resize Spec_Blur Spec_Parse
  M_Color M_Parse P_Parse M_Exif M_Cli P_Cli Spec_Corners Spec_Detect M_Detect M_Apply Spec_Morph Spec_Apply P_ApplyA P_ApplyB P_Apply P_Apply2 M_Main Spec_Main.
Local Open Scope string_scope.
Local Open Scope list_scope.
Local Open Scope Z_scope.

(** ** File names *)
Lemma strchr_some c t : forall a r, strchr c t = Some (a, r) -> t = a ++ c :: r.
Proof.
  induction t as [|x t IH]; intros a r; cbn [strchr]; [discriminate|]. destruct (Z.eqb_spec x c) as [->|E].
  - intros [= <- <-]. reflexivity.
  - destruct (strchr c t) as [[a' r']|]; [|discriminate]. intros [= <- <-]. cbn [app]. f_equal. apply IH. reflexivity.
Qed.

Lemma strrchr_ends path e : ~ In 46 e -> (strrchr 46 path = Some (46 :: e) <-> exists stem, path = stem ++ 46 :: e).
Proof.
  intros N. unfold strrchr. split.
  - destruct (strchr 46 (rev path)) as [[a r]|] eqn:E; [|discriminate]. intros [= <-]. apply strchr_some in E.
    exists (rev r). apply (f_equal (@rev Z)) in E. rewrite rev_involutive, rev_app_distr in E. cbn [rev] in E.
    rewrite <- app_assoc in E. exact E.
  - intros (stem & ->). rewrite rev_app_distr. cbn [rev]. rewrite <- app_assoc. cbn [app].
    rewrite strchr_app by (rewrite <- in_rev; exact N). rewrite rev_involutive. reflexivity.
Qed.

Lemma ext_iff path (x : string) (e : cstr) : txt x = 46 :: e -> ~ In 46 e ->
  ((match strrchr 46 path with Some ext => streq ext (str x) | None => false end) = true <-> ends_in path x).
Proof.
  intros E N. unfold ends_in. rewrite E, <- (strrchr_ends path e N). rewrite str_txt, E.
  destruct (strrchr 46 path) as [ext|]; [|split; discriminate]. rewrite streq_eq. split; [intros ->; reflexivity|intros [= ->]; reflexivity].
Qed.
Ltac ext x := eapply (ext_iff _ x); [reflexivity|vm_compute; intuition discriminate].

Lemma is_jpeg_iff path : is_jpeg_input path = true <-> jpeg_in path.
Proof.
  unfold jpeg_in.
  assert (A1 := ltac:(ext ".jpg") : _ <-> ends_in path ".jpg"). assert (A2 := ltac:(ext ".jpeg") : _ <-> ends_in path ".jpeg").
  assert (A3 := ltac:(ext ".JPG") : _ <-> ends_in path ".JPG"). assert (A4 := ltac:(ext ".JPEG") : _ <-> ends_in path ".JPEG").
  rewrite <- A1, <- A2, <- A3, <- A4. unfold is_jpeg_input. destruct (strrchr 46 path) as [e|]; [|intuition discriminate].
  rewrite !orb_true_iff. tauto.
Qed.
Lemma format_iff path : output_format path = JPEG <-> jpeg_out path.
Proof.
  unfold jpeg_out.
  assert (A1 := ltac:(ext ".jpg") : _ <-> ends_in path ".jpg"). assert (A2 := ltac:(ext ".jpeg") : _ <-> ends_in path ".jpeg").
  rewrite <- A1, <- A2. unfold output_format. destruct (strrchr 46 path) as [e|]; [|intuition discriminate].
  rewrite <- orb_true_iff. destruct (streq e (str ".png")) eqn:E.
  - apply streq_eq in E. subst. split; [discriminate|]. vm_compute. discriminate.
  - destruct (streq e (str ".jpg") || streq e (str ".jpeg")); intuition discriminate.
Qed.
Lemma binarizes_iff ops : has_binarization ops = true <-> binarizes ops.
Proof.
  unfold has_binarization, binarizes, named. rewrite existsb_exists. split; intros (o & I & H); exists o; (split; [exact I|]).
  - rewrite !orb_true_iff, !streq_eq, !str_txt in H. tauto.
  - rewrite !orb_true_iff, !streq_eq, !str_txt. tauto.
Qed.

(** ** Saving *)
Lemma read_all_ok n b : 0 <= n -> image n b -> read_all n b = Ok tt.
Proof.
  intros Hn I. unfold read_all.
  destruct (for_inv (fun _ (u : unit) => u = tt) 0 n (fun i _ => _ <- load b i ;; Ok tt) tt) as ([] & E & _); auto.
  intros i [] Hi _. destruct I as [I1 I2]. destruct (I2 i Hi) as (v & E & _). exists tt. split; [|reflexivity].
  rewrite (load_ok b i v) by (auto; lia). reflexivity.
Qed.

Lemma save_ok output ops w h q s b : usual w h -> mem s q = Some (OBytes b) -> image (w * h * 4) b ->
  save output ops w h (Ptr q) s =
    Ok (mkwritten (output_format output) output w h b (match output_format output with JPEG => has_binarization ops | PNG => false end), s).
Proof.
  intros (U1 & U2 & U3) Mq I. unfold save. cbv zeta.
  assert (E : exists z, (match output_format output with PNG => ck32 (w * 4) | JPEG => Ok 0 end) = Ok z).
  { destruct (output_format output); [|eexists; reflexivity]. exists (w * 4). apply ck32_ok. unfold INT_MIN, INT_MAX. lia. }
  destruct E as (z & E). rewrite (bindM_lift _ _ _ _ E).
  assert (G : get_bytes (Ptr q) s = Ok (b, s)) by (unfold get_bytes, bindM, get_obj; rewrite Mq; reflexivity).
  rewrite (bindM_Ok _ _ _ _ _ G). rewrite (bindM_lift _ _ _ _ (read_all_ok (w * h * 4) b ltac:(nia) I)). reflexivity.
Qed.

Lemma usual_swap w h : usual w h -> usual h w.
Proof. unfold usual. rewrite (Z.mul_comm h w). tauto. Qed.
Lemma usual_cli w h : usual w h -> cli_dims w h.
Proof. intros (U1 & U2 & U3). unfold cli_dims, SIZE_MAX. lia. Qed.
Lemma upright_usual o w h b w' h' b' : usual w h -> upright o w h b w' h' b' -> usual w' h' /\ image (w' * h' * 4) b'.
Proof.
  intros U (r & c & _ & E & X & _). split; [|apply X]. destruct c; cbn [upright_size] in E; injection E as -> ->; auto using usual_swap.
Qed.

(** ** The whole run *)
Lemma main_ok : forall atof atoi show2 exp atan2 asin pow2 fuel identity file decode can_write input wds output ops w h b o s,
  exp_ok exp -> 1073741825 < Z.of_nat fuel -> wf s -> wds <> [] ->
  parse_pipeline atof atoi show2 true wds = Ok (Some ops) -> ops <> [] ->
  decode (file input) = Some (w, h, b) -> usual w h -> image (w * h * 4) b ->
  (jpeg_in input -> get_exif_orientation fuel (file input) = Ok o) -> (~ jpeg_in input -> o = 1) ->
  (forall w1 h1 b1, seen o w h b w1 h1 b1 -> ready atof ops w1 h1 b1) ->
  text_memory ops (orc s) -> (2 <= o <= 8 -> forall n, orc s n = true) ->
  exists code out s',
    main atof atoi show2 exp atan2 asin pow2 fuel identity file decode can_write (input :: wds ++ [output]) s = Ok ((code, out), s') /\
    later s s' /\ same_mem s s' /\
    match out with
    | None => code = 1 /\ alloc_failed s s'
    | Some f =>
        code = (if can_write f then 0 else 1) /\ w_path f = output /\ (w_format f = JPEG <-> jpeg_out output) /\
        (w_warned f = true <-> jpeg_out output /\ binarizes ops) /\
        exact_image (w_width f * w_height f * 4) (w_data f) /\
        exists w1 h1 b1, seen o w h b w1 h1 b1 /\ composed (effect atof) ops w1 h1 b1 (w_width f) (w_height f) (w_data f)
    end.
Proof.
  intros atof atoi show2 exp atan2 asin pow2 fuel identity file decode can_write input wds output ops w h b o s
    He Hf W Hne PP One LD U Hb J1 J2 RD TM OM.
  unfold main. cbv zeta.
  assert (LEN : (List.length (input :: wds ++ [output]) >= 3)%nat).
  { cbn [List.length]. rewrite app_length. cbn [List.length]. destruct wds; [congruence|cbn [List.length]; lia]. }
  replace (Z.of_nat (List.length (input :: wds ++ [output])) + 1 <? 3) with false by lia.
  replace (Z.of_nat (List.length (input :: wds ++ [output])) + 1 =? 3) with false by lia.
  replace (Z.of_nat (List.length (input :: wds ++ [output])) + 1 <? 4) with false by lia.
  cbn [andb negb]. clear LEN.
  replace (skipn 1 (removelast (input :: wds ++ [output]))) with wds.
  2:{ change (input :: wds ++ [output]) with ((input :: wds) ++ [output]). rewrite removelast_last. reflexivity. }
  replace (last (input :: wds ++ [output]) []) with output.
  2:{ change (input :: wds ++ [output]) with ((input :: wds) ++ [output]). rewrite last_last. reflexivity. }
  rewrite (bindM_lift _ _ _ _ PP). destruct ops as [|o1 ops1]; [congruence|]. set (ops := o1 :: ops1) in *.
  cbn [nth]. rewrite LD.
  destruct (alloc_cases s (OBytes b) W) as [[E OF]|[_ OT]].
  { rewrite (bindM_Ok _ _ _ _ _ E). cbn [is_null].
    eexists 1, None, _. split; [reflexivity|]. split; [later_tac W|]. split; [intros i; reflexivity|]. split; [reflexivity|].
    exists (tick s). cbn [tick]. split; [lia|exact OF]. }
  destruct (alloc_plus s (OBytes b) W OT) as (s1 & E1 & Pl1 & M1 & _). rewrite (bindM_Ok _ _ _ _ _ E1). cbn [is_null].
  (* the orientation *)
  assert (X : exists i2 w2 h2 b2 s2,
    (if is_jpeg_input input then
       (orientation <-- lift (get_exif_orientation fuel (file input)) ;; apply_exif orientation w h (Ptr (nxt s)))
     else ret (Ptr (nxt s), w, h)) s1 = Ok (Ptr i2, w2, h2, s2) /\ plus s s2 i2 /\ mem s2 i2 = Some (OBytes b2) /\
    seen o w h b w2 h2 b2 /\ usual w2 h2 /\ image (w2 * h2 * 4) b2).
  { assert (K : o < 2 \/ 8 < o -> exists i2 w2 h2 b2 s2,
      Ok (Ptr (nxt s), w, h, s1) = Ok (Ptr i2, w2, h2, s2) /\ plus s s2 i2 /\ mem s2 i2 = Some (OBytes b2) /\
      seen o w h b w2 h2 b2 /\ usual w2 h2 /\ image (w2 * h2 * 4) b2).
    { intros Ho. exists (nxt s), w, h, b, s1. split; [reflexivity|]. split; [exact Pl1|]. split; [exact M1|].
      split; [right; auto|]. auto. }
    destruct (is_jpeg_input input) eqn:EJ.
    2:{ apply K. left. rewrite J2; [lia|]. intros J. apply is_jpeg_iff in J. congruence. }
    apply is_jpeg_iff in EJ. specialize (J1 EJ). rewrite (bindM_lift _ _ _ _ J1).
    destruct (Z_lt_dec o 2) as [L2|L2]; [rewrite apply_exif_plain by lia; apply K; auto|].
    destruct (Z_lt_dec 8 o) as [L8|L8]; [rewrite apply_exif_plain by lia; apply K; auto|].
    clear K. assert (Ho : 2 <= o <= 8) by lia. specialize (OM Ho).
    destruct (apply_exif_main o w h s1 (nxt s) b (proj1 (proj1 Pl1)) (conj (usual_cli _ _ U) Hb) M1 Ho)
      as (q & w2 & h2 & s2 & E & L & [(j & b2 & -> & (R1 & R2 & R3 & R4) & Up)|(_ & _ & (n & _ & F))]).
    2:{ destruct Pl1 as ((_ & O1 & _) & _). rewrite O1, OM in F. discriminate F. }
    exists j, w2, h2, b2, s2. split; [exact E|].
    destruct Pl1 as (PL & PN & PS & PO).
    assert (Nj : j <> nxt s) by (intros ->; congruence).
    split.
    { split; [eapply later_trans; eauto|]. split; [rewrite <- PO by auto; exact R1|]. split; [eauto|].
      intros k Hk. destruct (Z.eq_dec k (nxt s)) as [->|Nk]; [congruence|]. rewrite R4 by auto. apply PO. exact Nk. }
    split; [exact R2|]. split; [left; auto|]. eapply upright_usual; eauto. }
  destruct X as (i2 & w2 & h2 & b2 & s2 & E2 & Pl2 & M2 & Se & U2 & I2). rewrite (bindM_Ok _ _ _ _ _ E2).
  assert (O2 : orc s2 = orc s) by apply Pl2.
  destruct (pipeline_all atof exp atan2 asin pow2 fuel identity ops w2 h2 s2 i2 b2 He Hf U2 (proj1 (proj1 Pl2)) M2 I2 One (RD _ _ _ Se))
    as (q & w3 & h3 & s3 & E3 & L3 & K3); [rewrite O2; exact TM|].
  rewrite (bindM_Ok _ _ _ _ _ E3).
  destruct q as [|q].
  - cbn [is_null]. destruct K3 as [S3 (n & Hn & F)].
    assert (Pl3 : plus s s3 i2).
    { destruct Pl2 as (PL & PN & (ob & PS) & PO). split; [eapply later_trans; eauto|]. split; [exact PN|].
      split; [exists ob; rewrite S3; exact PS|]. intros k Hk. rewrite S3. apply PO. exact Hk. }
    destruct (free_plus _ _ _ Pl3) as (s4 & E4 & L4 & S4 & T4). rewrite (bindM_Ok _ _ _ _ _ E4).
    exists 1, None, s4. split; [reflexivity|]. split; [exact L4|]. split; [exact S4|]. split; [reflexivity|].
    exists n. rewrite T4. rewrite <- O2. split; [|exact F]. destruct Pl2 as ((_ & _ & T2 & _) & _). lia.
  - cbn [is_null]. destruct K3 as (N3 & (b3 & M3 & U3 & X3 & C3) & D3).
    assert (Nq : q <> i2) by (intros ->; congruence).
    assert (SV := save_ok output ops w3 h3 q s3 b3 U3 M3 (proj2 X3)).
    unfold bindM at 1. rewrite (bindM_Ok _ _ _ _ _ SV). cbn [ret].
    assert (M3' : mem s3 i2 = Some (OBytes b2)) by (rewrite D3 by auto; exact M2).
    rewrite (bindM_Ok _ _ _ _ _ (free_ok _ _ _ M3')).
    cbn [ptr_eqb]. replace (q =? i2) with false by lia. cbn [negb].
    set (s4 := mkst (upd (mem s3) i2 None) (nxt s3) (orc s3) (tick s3)).
    assert (M4 : mem s4 q = Some (OBytes b3)) by (cbn [mem s4]; rewrite upd_other by auto; exact M3).
    rewrite (bindM_Ok _ _ _ _ _ (free_ok _ _ _ M4)).
    eexists _, (Some _), _. split; [reflexivity|]. split.
    { apply later_upd. apply later_upd. eapply later_trans; [apply Pl2|exact L3]. }
    split.
    { destruct Pl2 as (PL & PN & PS & PO).
      intros k. cbn [mem s4]. unfold upd. destruct (Z.eqb_spec k q) as [->|Nk].
      - destruct (Z.eq_dec q i2); [congruence|]. rewrite <- PO by auto. symmetry. exact N3.
      - destruct (Z.eqb_spec k i2) as [->|Nk2]; [symmetry; exact PN|]. rewrite D3 by auto. apply PO. exact Nk2. }
    cbn [w_path w_format w_warned w_width w_height w_data].
    split; [reflexivity|]. split; [reflexivity|]. split; [apply format_iff|].
    split.
    { rewrite <- format_iff, <- binarizes_iff. destruct (output_format output); intuition discriminate. }
    split; [exact X3|]. exists w2, h2, b2. auto.
Qed.

(** ** Nothing to do *)
Lemma main_nothing : forall atof atoi show2 exp atan2 asin pow2 fuel identity file decode can_write (args : list cstr) s,
  (List.length args < 2)%nat \/
  (List.length args = 2%nat /\ nth 1 args [] <> txt "detect_corners") \/
  (exists input wds output, args = input :: wds ++ [output] /\ wds <> [] /\
     (parse_pipeline atof atoi show2 true wds = Ok None \/ parse_pipeline atof atoi show2 true wds = Ok (Some []) \/
      exists ops, parse_pipeline atof atoi show2 true wds = Ok (Some ops) /\ decode (file input) = None)) ->
  main atof atoi show2 exp atan2 asin pow2 fuel identity file decode can_write args s = Ok ((1, None), s).
Proof.
  intros atof atoi show2 exp atan2 asin pow2 fuel identity file decode can_write args s [L|[[L N]|(input & wds & output & -> & Hne & K)]].
  - unfold main. cbv zeta. replace (Z.of_nat (List.length args) + 1 <? 3) with true by lia. reflexivity.
  - unfold main. cbv zeta. rewrite L.
    replace (streq (nth 1 args []) (str "detect_corners")) with false by (symmetry; apply streq_ne; exact N). reflexivity.
  - unfold main. cbv zeta.
    assert (LEN : (List.length (input :: wds ++ [output]) >= 3)%nat).
    { cbn [List.length]. rewrite app_length. cbn [List.length]. destruct wds; [congruence|cbn [List.length]; lia]. }
    replace (Z.of_nat (List.length (input :: wds ++ [output])) + 1 <? 3) with false by lia.
    replace (Z.of_nat (List.length (input :: wds ++ [output])) + 1 =? 3) with false by lia.
    replace (Z.of_nat (List.length (input :: wds ++ [output])) + 1 <? 4) with false by lia.
    cbn [andb negb]. clear LEN.
    replace (skipn 1 (removelast (input :: wds ++ [output]))) with wds.
    2:{ change (input :: wds ++ [output]) with ((input :: wds) ++ [output]). rewrite removelast_last. reflexivity. }
    cbn [nth]. destruct K as [K|[K|(ops & K & D)]]; rewrite (bindM_lift _ _ _ _ K); [reflexivity|reflexivity|].
    rewrite D. destruct ops; reflexivity.
Qed.

Lemma JPG_is_png path : ends_in path ".JPG" -> ~ jpeg_out path.
Proof.
  intros (a & E) [(c & F)|(c & F)]; rewrite E in F; apply (f_equal (@rev Z)) in F; rewrite !rev_app_distr in F;
    vm_compute in F; discriminate F.
Qed.

(** ** Very wide pictures *)
Lemma wide_png : forall atof atoi show2 exp atan2 asin pow2 fuel identity file decode can_write input output b s,
  wf s -> (forall n, orc s n = true) -> ~ jpeg_in input -> ~ jpeg_out output ->
  atof (txt "536870912") = d_of_Z 536870912 -> atof (txt "1") = d_of_Z 1 ->
  decode (file input) = Some (1, 1, b) -> image 4 b ->
  main atof atoi show2 exp atan2 asin pow2 fuel identity file decode can_write
    [input; txt "resize"; txt "536870912x1"; output] s = UB SignedOverflow.
Proof.
  intros atof atoi show2 exp atan2 asin pow2 fuel identity file decode can_write input output b s W OT NJ NO A1 A2 LD Hb.
  unfold main. cbv zeta. cbn [List.length]. 
  change (Z.of_nat 4 + 1) with 5. cbn [Z.ltb Z.eqb Z.compare Pos.compare Pos.compare_cont Pos.eqb andb negb].
  change (skipn 1 (removelast [input; txt "resize"; txt "536870912x1"; output])) with [txt "resize"; txt "536870912x1"].
  change (last [input; txt "resize"; txt "536870912x1"; output] []) with output.
  assert (PP : parse_pipeline atof atoi show2 true [txt "resize"; txt "536870912x1"] =
    Ok (Some [mkop (txt "resize") None None None None (Some (txt "536870912x1"))])) by (vm_compute; reflexivity).
  rewrite (bindM_lift _ _ _ _ PP). cbn [nth]. rewrite LD.
  destruct (alloc_plus s (OBytes b) W (OT _)) as (s1 & E1 & Pl1 & M1 & _). rewrite (bindM_Ok _ _ _ _ _ E1). cbn [is_null].
  replace (is_jpeg_input input) with false.
  2:{ destruct (is_jpeg_input input) eqn:E; [|reflexivity]. apply is_jpeg_iff in E. tauto. }
  unfold bindM at 1. cbn [ret].
  destruct (alloc_plus s1 (OBytes (of_list (txt "536870912x1" ++ [0]))) (proj1 (proj1 Pl1))) as (s2 & E2 & Pl2 & _).
  { replace (orc s1) with (orc s) by (symmetry; apply Pl1). apply OT. }
  destruct (free_plus _ _ _ Pl2) as (s3 & E3 & L3 & S3 & _).
  set (R := d_of_Z 536870912).
  assert (FR : resize_factors atof (txt "536870912x1") 1 1 = Some (R, d_of_Z 1)).
  { change (resize_factors atof (txt "536870912x1") 1 1)
      with (Some (ddiv (atof (txt "536870912")) (d_of_Z 1), ddiv (atof (txt "1")) (d_of_Z 1))).
    rewrite A1, A2. f_equal. apply f_equal2; apply B2SF_inj; vm_compute; reflexivity. }
  assert (O1 : out_size 1 R = 536870912) by (vm_compute; reflexivity).
  assert (O2 : out_size 1 (d_of_Z 1) = 1) by (vm_compute; reflexivity).
  assert (M3 : mem s3 (nxt s) = Some (OBytes b)) by (rewrite S3; exact M1).
  destruct (resize_main 1 1 R (d_of_Z 1) 0 0 s3 (Ptr (nxt s)) b) as (q & s4 & E4 & L4 & K4).
  1-3: lia.
  1-2: unfold factor_ok; rewrite ?O1, ?O2; repeat split; try (vm_compute; reflexivity); lia.
  { rewrite O1, O2. lia. }
  { apply L3. }
  { eexists; split; [reflexivity|exact M3]. }
  { exact Hb. }
  destruct q as [|q].
  { destruct K4 as [_ (n & _ & F)]. replace (orc s3) with (orc s) in F; [rewrite OT in F; discriminate F|].
    destruct L3 as (_ & -> & _). symmetry. apply Pl1. }
  assert (AP : apply_operation atof exp atan2 asin pow2 fuel identity (mkop (txt "resize") None None None None (Some (txt "536870912x1"))) 1 1
    (Ptr (nxt s)) s1 = Ok (Ptr q, 536870912, 1, s4)).
  { change (apply_operation atof exp atan2 asin pow2 fuel identity (mkop (txt "resize") None None None None (Some (txt "536870912x1"))) 1 1)
      with (resize_op atof (mkop (txt "resize") None None None None (Some (txt "536870912x1"))) 1 1).
    unfold resize_op, strdup. cbn [op_str]. unfold bindM at 1 2. rewrite E2. cbn [text_of]. unfold bindM at 1 2. cbn [ret]. rewrite E3.
    rewrite FR. unfold ret at 1. cbv iota. change (u32 1) with 1. rewrite (bindM_Ok _ _ _ _ _ E4). rewrite O1, O2. reflexivity. }
  assert (EP : execute_pipeline (apply_operation atof exp atan2 asin pow2 fuel identity) 1 1
    [mkop (txt "resize") None None None None (Some (txt "536870912x1"))] (Ptr (nxt s)) s1 = Ok (Ptr q, 536870912, 1, s4)).
  { unfold execute_pipeline. cbn [pipeline_loop]. rewrite (bindM_Ok _ _ _ _ _ AP). reflexivity. }
  rewrite (bindM_Ok _ _ _ _ _ EP). cbn [is_null]. unfold bindM at 1 2, save.
  destruct (output_format output) eqn:OFm; [reflexivity|]. apply format_iff in OFm. tauto.
Qed.

(** ** Black pictures *)
Lemma main_black : forall atof atoi show2 exp atan2 asin pow2 fuel identity file decode can_write input w h b s,
  exp_ok exp -> atan2_ok atan2 -> 66565 < Z.of_nat fuel -> wf s -> (forall n, orc s n = true) -> ~ jpeg_in input ->
  decode (file input) = Some (w, h, b) -> usual w h -> image (w * h * 4) b -> all_black w h b ->
  exists u, main atof atoi show2 exp atan2 asin pow2 fuel identity file decode can_write [input; txt "detect_corners"] s = UB u.
Proof.
  intros atof atoi show2 exp atan2 asin pow2 fuel identity file decode can_write input w h b s He Ha Hf W OT NJ LD U Hb D.
  destruct (alloc_plus s (OBytes b) W (OT _)) as (s1 & E1 & Pl1 & M1 & _).
  destruct (corners_black atof exp atan2 asin pow2 fuel identity (mkop (txt "detect_corners") None None None None None) w h s1 (Ptr (nxt s)) b)
    as (u & E); auto.
  { apply Pl1. }
  { eexists; split; [reflexivity|exact M1]. }
  { intros n. replace (orc s1) with (orc s) by (symmetry; apply Pl1). apply OT. }
  { left. reflexivity. }
  exists u. unfold main. cbv zeta. cbn [List.length]. change (Z.of_nat 2 + 1) with 3.
  change (nth 1 [input; txt "detect_corners"] []) with (txt "detect_corners").
  replace (streq (txt "detect_corners") (str "detect_corners")) with true by (vm_compute; reflexivity).
  cbn [Z.ltb Z.eqb Z.compare Pos.compare Pos.compare_cont Pos.eqb andb negb skipn].
  assert (PP : parse_pipeline atof atoi show2 true [txt "detect_corners"] =
    Ok (Some [mkop (txt "detect_corners") None None None None None])) by (vm_compute; reflexivity).
  rewrite (bindM_lift _ _ _ _ PP). cbn [nth]. rewrite LD.
  rewrite (bindM_Ok _ _ _ _ _ E1). cbn [is_null].
  replace (is_jpeg_input input) with false.
  2:{ destruct (is_jpeg_input input) eqn:EJ; [|reflexivity]. apply is_jpeg_iff in EJ. tauto. }
  unfold bindM at 1. cbn [ret]. unfold bindM at 1. unfold execute_pipeline. cbn [pipeline_loop]. unfold bindM at 1. rewrite E. reflexivity.
Qed.

Lemma main_JPG : forall atof atoi show2 exp atan2 asin pow2 fuel identity file decode can_write input wds output ops w h b o s,
  exp_ok exp -> 1073741825 < Z.of_nat fuel -> wf s -> wds <> [] ->
  parse_pipeline atof atoi show2 true wds = Ok (Some ops) -> ops <> [] ->
  decode (file input) = Some (w, h, b) -> usual w h -> image (w * h * 4) b ->
  (jpeg_in input -> get_exif_orientation fuel (file input) = Ok o) -> (~ jpeg_in input -> o = 1) ->
  (forall w1 h1 b1, seen o w h b w1 h1 b1 -> ready atof ops w1 h1 b1) -> (forall n, orc s n = true) ->
  ends_in output ".JPG" ->
  jpeg_in output /\ exists code f s',
    main atof atoi show2 exp atan2 asin pow2 fuel identity file decode can_write (input :: wds ++ [output]) s = Ok ((code, Some f), s') /\
    w_path f = output /\ w_format f = PNG.
Proof.
  intros atof atoi show2 exp atan2 asin pow2 fuel identity file decode can_write input wds output ops w h b o s
    He Hf W Hne PP One LD U Hb J1 J2 RD OT EO. split; [right; right; left; exact EO|].
  destruct (main_ok atof atoi show2 exp atan2 asin pow2 fuel identity file decode can_write input wds output ops w h b o s
    He Hf W Hne PP One LD U Hb J1 J2 RD) as (code & out & s' & E & _ & _ & K); auto.
  { intros o' _ _. exact OT. }
  destruct out as [f|].
  - exists code, f, s'. destruct K as (_ & P & F & _). split; [exact E|]. split; [exact P|].
    destruct (w_format f); [reflexivity|]. exfalso. apply (JPG_is_png _ EO). apply F. reflexivity.
  - destruct K as [_ (n & _ & F)]. rewrite OT in F. discriminate F.
Qed.
