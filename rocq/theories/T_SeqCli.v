(** * Theorems: command lines that turn a picture *)
From Coq Require Import Reals String.
From Verif Require Import Base F Heap Spec Spec_Draw Spec_Cli Spec_Blur Spec_Parse Spec_Exif M_Color M_Parse M_Exif M_Cli P_Blur P_Corners
  Spec_Corners Spec_Detect M_Detect M_Apply Spec_Apply M_Main Spec_Main ExUtil T_Cli T_Apply T_Main Spec_Rel Spec_Seq Spec_SeqCli P_SeqCli P_SeqCli2.
From Verif Require Import Spec_Morph.
Local Open Scope string_scope.
Local Open Scope list_scope.
Local Open Scope Z_scope.

(** ** C122: a pipeline of "flip_x", "flip_y" and "rotate" with multiples of 90 degrees,
    of any length: the result shows the picture as a sheet of paper does that is turned
    in the same way. *)
Theorem C122_pipeline : forall atof exp atan2 asin pow2 fuel identity ops ts w h s i b,
  exp_ok exp -> 1073741825 < Z.of_nat fuel -> usual w h -> wf s -> mem s i = Some (OBytes b) -> image (w * h * 4) b ->
  ops <> [] -> Forall2 stands_for ops ts ->
  Spec_Trim.returns_sized s (execute_pipeline (apply_operation atof exp atan2 asin pow2 fuel identity) w h ops (Ptr i) s)
    (fun w' h' b' => exact_image (w' * h' * 4) b' /\ laid (sheet_after (concat ts)) w h b w' h' b').
Proof. exact pipeline_laid. Qed.
Print Assumptions C122_pipeline.

(** The whole program: the sheet is first turned as the orientation tag [o] of the input
    file asks, then as the operations say. *)
Theorem C122_program : forall atof atoi show2 exp atan2 asin pow2 fuel identity file decode can_write input wds output ops ts w h b o s,
  exp_ok exp -> 1073741825 < Z.of_nat fuel -> wf s -> wds <> [] ->
  parse_pipeline atof atoi show2 true wds = Ok (Some ops) -> ops <> [] -> Forall2 stands_for ops ts ->
  decode (file input) = Some (w, h, b) -> usual w h -> image (w * h * 4) b ->
  (jpeg_in input -> get_exif_orientation fuel (file input) = Ok o) -> (~ jpeg_in input -> o = 1) ->
  (2 <= o <= 8 -> forall n, orc s n = true) ->
  exists code out s',
    main atof atoi show2 exp atan2 asin pow2 fuel identity file decode can_write (input :: wds ++ [output]) s = Ok ((code, out), s') /\
    later s s' /\ same_mem s s' /\
    match out with
    | None => code = 1 /\ alloc_failed s s'
    | Some f => code = (if can_write f then 0 else 1) /\ w_path f = output /\
        exact_image (w_width f * w_height f * 4) (w_data f) /\
        laid (sheet_after (by_tag o ++ concat ts)) w h b (w_width f) (w_height f) (w_data f)
    end.
Proof. exact program_laid. Qed.
Print Assumptions C122_program.

(** "rotate -270, flip_x, rotate 180" on a picture stored turned (orientation 6): the
    turnings and the sheet *)
Definition sq_ops : list pipeline_op := [with1 "rotate" (-270); plain "flip_x"; with1 "rotate" 180].
Definition sq_atof (s : cstr) : f64 := match s with 45 :: s' => d_of_Z (- decimal 0 s') | _ => d_of_Z (decimal 0 s) end.
Definition sq_wds : list cstr := [txt "rotate"; txt "-270,"; txt "flip_x,"; txt "rotate"; txt "180"].
Example C122_ex : parse_pipeline sq_atof (fun _ => 0) (fun _ _ => []) true sq_wds = Ok (Some sq_ops) /\
  Forall2 stands_for sq_ops [[Right_turn]; [Mirror_x]; [Right_turn; Right_turn]] /\
  m_decode (m_file (txt "a.b/in.JPG")) = Some (3, 2, of_list pic32) /\ get_exif_orientation 100 (m_file (txt "a.b/in.JPG")) = Ok 6 /\
  sheet_after (by_tag 6 ++ [Right_turn; Mirror_x; Right_turn; Right_turn]) = mksheet B A D C /\
  m_run ["a.b/in.JPG"; "rotate"; "90,"; "flip_x"; "out.png"] = Some (0, Some (PNG, 3, 2,
    List.map Some [7;8;9;0; 40;50;60;255; 200;210;220;1; 1;2;3;255; 10;20;30;255; 100;110;120;128], false)) /\
  sheet_after (by_tag 6 ++ [Right_turn; Mirror_x]) = mksheet D C B A.
Proof.
  split; [reflexivity|]. split.
  { constructor; [|constructor; [|constructor; [|constructor]]].
    - apply (for_rotate _ (d_of_Z (-270)) (-3)); try reflexivity. replace (int_part (d_of_Z (-270))) with (-270) by (vm_compute; reflexivity). unfold is_i32. lia.
    - now apply for_flip_x.
    - apply (for_rotate _ (d_of_Z 180) 2); try reflexivity. replace (int_part (d_of_Z 180)) with 180 by (vm_compute; reflexivity). unfold is_i32. lia. }
  split; [reflexivity|]. split; [vm_compute; reflexivity|]. split; [reflexivity|]. split; [vm_compute; reflexivity|reflexivity].
Qed.

(** ** C123: turnings mixed with "grayscale", "erode", "dilate", "close", "open" and
    "border" in any way: the result depends only on the sequence of these operations and
    on where a sheet's corners end up. *)
Theorem C123_mixed : forall atof exp atan2 asin pow2 fuel identity ops ops' ts ts' fs w h b w1 h1 b1 w2 h2 b2,
  exp_ok exp -> 1073741825 < Z.of_nat fuel -> usual w h -> image (w * h * 4) b -> ops <> [] -> ops' <> [] ->
  ready atof ops w h b -> ready atof ops' w h b ->
  mixture ops ts fs -> mixture ops' ts' fs -> sheet_after ts = sheet_after ts' ->
  Spec_Trim.calls_sized (fun w h p => execute_pipeline (apply_operation atof exp atan2 asin pow2 fuel identity) w h ops p) w h b w1 h1 b1 ->
  Spec_Trim.calls_sized (fun w h p => execute_pipeline (apply_operation atof exp atan2 asin pow2 fuel identity) w h ops' p) w h b w2 h2 b2 ->
  w1 = w2 /\ h1 = h2 /\ same_bytes (w1 * h1 * 4) b1 b2.
Proof. exact pipelines_agree. Qed.
Print Assumptions C123_mixed.

(** "rotate 90, dilate 1, flip_x, border 1 0080FF" and "flip_y, dilate 1, border 1 0080FF,
    rotate 90": both suit the picture and return, if there is memory. *)
Definition mx_ops : list pipeline_op := [with1 "rotate" 90; with1 "dilate" 1; plain "flip_x"; ex_border].
Definition mx_ops' : list pipeline_op := [plain "flip_y"; with1 "dilate" 1; ex_border; with1 "rotate" 90].
Definition mx_turns : list turning := [Right_turn; Mirror_x].
Definition mx_turns' : list turning := [Mirror_y; Right_turn].
Lemma for_90 : stands_for (with1 "rotate" 90) [Right_turn].
Proof. apply (for_rotate _ (d_of_Z 90) 1); try reflexivity. replace (int_part (d_of_Z 90)) with 90 by (vm_compute; reflexivity). unfold is_i32. lia. Qed.
Lemma mx_returns ops : ops <> [] -> ready ap_atof ops 3 2 (of_list pic32) -> text_memory ops (fun _ => true) -> exists w1 h1 b1,
  Spec_Trim.calls_sized (fun w h p => execute_pipeline (apply_operation ap_atof exp_round toy_atan2 (fun x => x) (fun x => x) (Z.to_nat 1073741826) Null) w h ops p)
    3 2 (of_list pic32) w1 h1 b1.
Proof.
  intros Hne R T.
  destruct (C80_pipeline ap_atof exp_round toy_atan2 (fun x => x) (fun x => x) (Z.to_nat 1073741826) Null ops 3 2 (st1 pic32) 0 (of_list pic32)
    exp_round_ok enough usual32 (wf_st1 pic32) eq_refl ltac:(apply pic32_hyps) Hne R T) as (p & w1 & h1 & s' & E & L & K).
  destruct p as [|i]; [|destruct K as (_ & (b1 & Hb & _) & _); exists w1, h1, b1, (st1 pic32), (Ptr 0), (Ptr i), s'; split; [apply wf_st1|]; split; [apply holds_st1|];
    split; [exact E|]; exists i; auto].
  exfalso. destruct K as [_ (n & _ & Hn)]. discriminate Hn.
Qed.
Lemma mx_fits_dilate w h b : fits ap_atof (with1 "dilate" 1) w h b.
Proof. eapply (fit_morph _ _ _ _ _ "dilate"); try reflexivity; [cbn; auto|]. replace (int_part (d_of_Z 1)) with 1 by (vm_compute; reflexivity). lia. Qed.
Lemma mx_fits_border w h b : 0 < w <= 3 -> 0 < h <= 3 -> fits ap_atof ex_border w h b.
Proof.
  intros Hw Hh. eapply fit_border; try reflexivity; replace (int_part (d_of_Z 1)) with 1 by (vm_compute; reflexivity). unfold usual. nia.
Qed.
Lemma mx_size o w h b w1 h1 b1 : (exists t, stands_for o t) \/ named o "dilate" -> effect ap_atof o w h b w1 h1 b1 -> 0 < w <= 3 -> 0 < h <= 3 -> 0 < w1 <= 3 /\ 0 < h1 <= 3.
Proof.
  intros [[t S]|N] E Hw Hh.
  - destruct (effect_moved _ _ _ _ _ _ _ _ _ S E) as (-> & -> & _). unfold P_Seq.pw, P_Seq.ph. destruct (P_Seq.sw _); auto.
  - destruct E; try (exfalso; eapply names_differ; [exact N|eassumption|vm_compute; discriminate]). auto.
Qed.
Example C123_ex : ready ap_atof mx_ops 3 2 (of_list pic32) /\ ready ap_atof mx_ops' 3 2 (of_list pic32) /\
  mixture mx_ops mx_turns [with1 "dilate" 1; ex_border] /\ mixture mx_ops' mx_turns' [with1 "dilate" 1; ex_border] /\
  sheet_after mx_turns = sheet_after mx_turns' /\
  (exists w1 h1 b1, Spec_Trim.calls_sized (fun w h p => execute_pipeline (apply_operation ap_atof exp_round toy_atan2 (fun x => x) (fun x => x) (Z.to_nat 1073741826) Null) w h mx_ops p)
    3 2 (of_list pic32) w1 h1 b1) /\
  (exists w1 h1 b1, Spec_Trim.calls_sized (fun w h p => execute_pipeline (apply_operation ap_atof exp_round toy_atan2 (fun x => x) (fun x => x) (Z.to_nat 1073741826) Null) w h mx_ops' p)
    3 2 (of_list pic32) w1 h1 b1).
Proof.
  assert (Fx : stands_for (plain "flip_x") [Mirror_x]) by now apply for_flip_x.
  assert (Fy : stands_for (plain "flip_y") [Mirror_y]) by now apply for_flip_y.
  assert (R : ready ap_atof mx_ops 3 2 (of_list pic32)).
  { cbn [ready mx_ops]. split; [apply (stands_fits _ _ _ _ _ _ for_90)|]. intros w1 h1 b1 E1. split; [apply mx_fits_dilate|]. intros w2 h2 b2 E2.
    split; [apply (stands_fits _ _ _ _ _ _ Fx)|]. intros w3 h3 b3 E3. split; [|auto].
    apply mx_size in E1; [|left; exists [Right_turn]; exact for_90|lia|lia]. apply mx_size in E2; [|right; reflexivity|tauto|tauto].
    apply mx_size in E3; [|left; exists [Mirror_x]; exact Fx|tauto|tauto]. apply mx_fits_border; tauto. }
  assert (R' : ready ap_atof mx_ops' 3 2 (of_list pic32)).
  { cbn [ready mx_ops']. split; [apply (stands_fits _ _ _ _ _ _ Fy)|]. intros w1 h1 b1 E1. split; [apply mx_fits_dilate|]. intros w2 h2 b2 E2.
    apply mx_size in E1; [|left; exists [Mirror_y]; exact Fy|lia|lia]. apply mx_size in E2; [|right; reflexivity|tauto|tauto].
    split; [apply mx_fits_border; tauto|]. intros w3 h3 b3 E3. split; [apply (stands_fits _ _ _ _ _ _ for_90)|auto]. }
  assert (D : evenhanded (with1 "dilate" 1)) by (exists "dilate"; split; [reflexivity|cbn; auto]).
  assert (B : evenhanded ex_border) by (exists "border"; split; [reflexivity|cbn; auto 7]).
  assert (X : mixture mx_ops mx_turns [with1 "dilate" 1; ex_border]).
  { apply (mix_turn _ [Right_turn] _ [Mirror_x]); [exact for_90|]. apply mix_other; [exact D|]. apply (mix_turn _ [Mirror_x] _ []); [exact Fx|]. apply mix_other; [exact B|]. constructor. }
  assert (X' : mixture mx_ops' mx_turns' [with1 "dilate" 1; ex_border]).
  { apply (mix_turn _ [Mirror_y] _ [Right_turn]); [exact Fy|]. apply mix_other; [exact D|]. apply mix_other; [exact B|]. apply (mix_turn _ [Right_turn] _ []); [exact for_90|]. constructor. }
  split; [exact R|]. split; [exact R'|]. split; [exact X|]. split; [exact X'|]. split; [reflexivity|].
  split; (apply mx_returns; [discriminate|assumption|eapply mixture_text; eassumption]).
Qed.
