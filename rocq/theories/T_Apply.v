(** * Theorems C80-C85: the operations of the command line *)
From Coq Require Import Reals String.
From Verif Require Import Base F Heap Spec Spec_Draw Spec_Cli Spec_Blur Spec_Parse M_Color M_Parse M_Cli P_Blur P_Corners Spec_Corners Spec_Detect
  M_Detect M_Apply Spec_Morph Spec_Apply P_Apply P_Apply2 ExUtil T_Cli.
Local Open Scope string_scope.
Local Open Scope list_scope.
Local Open Scope Z_scope.

(** ** C80: every operation does what its name and parameters say *)
Theorem C80_operation : forall atof exp atan2 asin pow2 fuel identity o w h s p b,
  exp_ok exp -> 1073741825 < Z.of_nat fuel -> usual w h -> wf s -> holds s p b -> image (w * h * 4) b ->
  fits atof o w h b -> (copies_text o -> orc s (tick s) = true) ->
  Spec_Trim.returns_sized s (apply_operation atof exp atan2 asin pow2 fuel identity o w h p s) (fun w' h' b' =>
    usual w' h' /\ exact_image (w' * h' * 4) b' /\ effect atof o w h b w' h' b').
Proof. exact operation_ok. Qed.
Print Assumptions C80_operation.

(** A pipeline composes the effects of its operations. *)
Theorem C80_pipeline : forall atof exp atan2 asin pow2 fuel identity ops w h s i b,
  exp_ok exp -> 1073741825 < Z.of_nat fuel -> usual w h -> wf s -> mem s i = Some (OBytes b) -> image (w * h * 4) b ->
  ops <> [] -> ready atof ops w h b -> text_memory ops (orc s) ->
  Spec_Trim.returns_sized s (execute_pipeline (apply_operation atof exp atan2 asin pow2 fuel identity) w h ops (Ptr i) s)
    (fun w' h' b' => usual w' h' /\ exact_image (w' * h' * 4) b' /\ composed (effect atof) ops w h b w' h' b').
Proof. exact pipeline_all. Qed.
Print Assumptions C80_pipeline.

Definition ap_atof (s : cstr) : f64 := d_of_Z (decimal 0 s).
Definition plain (n : string) : pipeline_op := mkop (txt n) None None None None None.
Definition with1 (n : string) (x : Z) : pipeline_op := mkop (txt n) (Some (d_of_Z x)) None None None None.
Definition texted (n : string) (t : string) : pipeline_op := mkop (txt n) None None None None (Some (txt t)).
Definition ex_border : pipeline_op := mkop (txt "border") (Some (d_of_Z 1)) None None None (Some (txt "0080FF")).
Definition ex_crop : pipeline_op := mkop (txt "crop") (Some (d_of_Z 0)) (Some (d_of_Z 1)) (Some (d_of_Z 2)) (Some (d_of_Z 2)) None.
Definition ex_crop2 : pipeline_op := mkop (txt "crop") (Some (d_of_Z 1)) (Some (d_of_Z 2)) (Some (d_of_Z 2)) (Some (d_of_Z 2)) None.
Definition ex_disk : pipeline_op := mkop (txt "disk") (Some (d_of_Z 1)) (Some (d_of_Z 0)) (Some (d_of_Z 0)) None (Some (txt "FF0000 fill")).
Definition ap_run (o : pipeline_op) : option (Z * Z * list (option Z)) :=
  pic_out (apply_operation ap_atof exp_round toy_atan2 (fun x => x) (fun x => x) 50 Null o 3 2 (Ptr 0) (st1 pic32)).

Lemma usual32 : usual 3 2. Proof. unfold usual. lia. Qed.
Lemma enough : 1073741825 < Z.of_nat (Z.to_nat 1073741826).
Proof. rewrite Z2Nat.id; lia. Qed.

(** The hypotheses hold, and what "border", "disk", "crop", "watershed", "dilate"
    and "resize" do to a 3x2 picture. *)
Example C80_ex : exp_ok exp_round /\ 1073741825 < Z.of_nat (Z.to_nat 1073741826) /\ usual 3 2 /\ wf (st1 pic32) /\
  holds (st1 pic32) (Ptr 0) (of_list pic32) /\ image (3 * 2 * 4) (of_list pic32) /\
  fits ap_atof ex_border 3 2 (of_list pic32) /\ fits ap_atof ex_crop 3 2 (of_list pic32) /\
  fits ap_atof ex_disk 3 2 (of_list pic32) /\
  fits ap_atof (texted "watershed" "0x0 2x1") 3 2 (of_list pic32) /\ fits ap_atof (with1 "dilate" 1) 3 2 (of_list pic32) /\
  fits ap_atof (texted "resize" "6x2") 3 2 (of_list pic32) /\
  ap_run ex_border = Some (5, 4, List.map Some
    ([0;128;255;255; 0;128;255;255; 0;128;255;255; 0;128;255;255; 0;128;255;255] ++
     [0;128;255;255; 1;2;3;255; 10;20;30;255; 100;110;120;128; 0;128;255;255] ++
     [0;128;255;255; 7;8;9;0; 40;50;60;255; 200;210;220;1; 0;128;255;255] ++
     [0;128;255;255; 0;128;255;255; 0;128;255;255; 0;128;255;255; 0;128;255;255])) /\
  ap_run ex_crop = Some (2, 1, List.map Some [7;8;9;0; 40;50;60;255]) /\
  ap_run ex_disk = Some (3, 2, List.map Some
    [255;0;0;255; 255;0;0;255; 100;110;120;128; 255;0;0;255; 40;50;60;255; 200;210;220;1]) /\
  ap_run (texted "watershed" "0x0 2x1") = Some (3, 2, List.map Some
    [255;0;0;255; 255;0;0;255; 255;0;0;255; 255;0;0;255; 255;0;0;255; 0;255;0;255]) /\
  ap_run (texted "watershed" "00") = None.
Proof.
  split; [exact exp_round_ok|]. split; [exact enough|]. split; [exact usual32|]. split; [apply wf_st1|].
  split; [apply holds_st1|]. split; [apply pic32_hyps|].
  split.
  { eapply fit_border; try reflexivity. unfold usual. replace (int_part (d_of_Z 1)) with 1 by (vm_compute; reflexivity). lia. }
  split.
  { eapply fit_crop; try reflexivity; unfold is_i32, is_u32;
      replace (int_part (d_of_Z 0)) with 0 by (vm_compute; reflexivity);
      replace (int_part (d_of_Z 1)) with 1 by (vm_compute; reflexivity);
      replace (int_part (d_of_Z 2)) with 2 by (vm_compute; reflexivity); lia. }
  split.
  { eapply (fit_shape _ _ _ _ _ "disk" _ (txt "FF0000")); try reflexivity.
    - cbn; auto.
    - split; [discriminate|]. split; [vm_compute; intuition discriminate|]. right. exists (txt "fill"). reflexivity.
    - unfold draw_ok. replace (int_part (d_of_Z 0)) with 0 by (vm_compute; reflexivity).
      replace (int_part (d_of_Z 1)) with 1 by (vm_compute; reflexivity).
      split; [lia|]. split; [lia|]. split; [auto|]. split; [reflexivity|]. split; [reflexivity|]. split; [reflexivity|].
      split; [vm_compute; reflexivity|]. lia.
    - lia. }
  split.
  { eapply (fit_watershed _ _ _ _ _ (txt "0x0 2x1") [(txt "0", txt "0"); (txt "2", txt "1")]); try reflexivity.
    - split; [discriminate|]. split; [vm_compute; reflexivity|].
      repeat (apply Forall_cons; [split; [|split]; [apply Forall_cons; [vm_compute; intuition discriminate|apply Forall_nil]..|
        vm_compute; intuition discriminate]|]). apply Forall_nil.
    - cbn. lia.
    - repeat (apply Forall_cons; [split; [vm_compute; reflexivity|]; split; [vm_compute; reflexivity|];
        split; vm_compute; split; first [reflexivity | intros X; discriminate X]|]). apply Forall_nil. }
  split.
  { eapply (fit_morph _ _ _ _ _ "dilate"); try reflexivity; [cbn; auto|].
    replace (int_part (d_of_Z 1)) with 1 by (vm_compute; reflexivity). lia. }
  split.
  { assert (SX : In (txt "6") [txt "6"]) by (left; reflexivity).
    eapply (fit_resize _ _ _ _ _ (ddiv (d_of_Z 6) (d_of_Z 3)) (ddiv (d_of_Z 2) (d_of_Z 2))); try reflexivity.
    - eapply (scale_absolute ap_atof _ 3 2 (txt "6") (txt "2")); [reflexivity| | | |].
      1-2: apply Forall_cons; [vm_compute; intuition discriminate|apply Forall_nil].
      1-2: vm_compute; intuition discriminate.
    - split; [vm_compute; reflexivity|]. split; [vm_compute; reflexivity|]. split; [vm_compute; reflexivity|]. vm_compute. discriminate.
    - split; [vm_compute; reflexivity|]. split; [vm_compute; reflexivity|]. split; [vm_compute; reflexivity|]. vm_compute. discriminate.
    - unfold usual. replace (Spec_Resize.out_size 3 (ddiv (d_of_Z 6) (d_of_Z 3))) with 6 by (vm_compute; reflexivity).
      replace (Spec_Resize.out_size 2 (ddiv (d_of_Z 2) (d_of_Z 2))) with 2 by (vm_compute; reflexivity). lia. }
  repeat (split; [vm_compute; reflexivity|]). vm_compute; reflexivity.
Qed.

(** A pipeline: turn, then cut out a part that fits only the turned picture, then
    make it gray. *)
Definition ex_pipe : list pipeline_op := [with1 "rotate" 90; ex_crop2; plain "grayscale"].
Example C80_pipeline_ex : ready ap_atof ex_pipe 3 2 (of_list pic32) /\ text_memory ex_pipe (orc (st1 pic32)) /\
  pic_out (execute_pipeline (apply_operation ap_atof exp_round toy_atan2 (fun x => x) (fun x => x) 50 Null) 3 2 ex_pipe (Ptr 0) (st1 pic32)) =
    Some (1, 1, List.map Some [108; 108; 108; 255]).
Proof.
  split; [|split; [|vm_compute; reflexivity]].
  - cbn [ready ex_pipe]. split.
    { eapply (fit_rotate _ _ _ _ _ _ 1); try reflexivity. unfold is_i32. vm_compute. split; intros X; discriminate X. }
    intros w1 h1 b1 E. split.
    + assert (D : w1 = 2 /\ h1 = 3).
      { inversion E; subst; try (match goal with N : named _ _ |- _ => vm_compute in N; discriminate N end).
        change (Some (d_of_Z 90) = Some a) in H0.
        assert (Q : Some (int_part a) = Some 90) by (change (Some (int_part a)) with (option_map int_part (Some a)); rewrite <- H0; vm_compute; reflexivity).
        injection Q as Q.
        assert (k = 1) as -> by lia. destruct H2 as (_ & _ & T & _).
        destruct T as (-> & -> & _); [reflexivity|auto]. }
      destruct D as [-> ->].
      eapply fit_crop; try reflexivity; unfold is_i32, is_u32;
        replace (int_part (d_of_Z 1)) with 1 by (vm_compute; reflexivity);
        replace (int_part (d_of_Z 2)) with 2 by (vm_compute; reflexivity); lia.
    + intros w2 h2 b2 _. split; [|auto]. apply (fit_plain _ _ _ _ _ "grayscale"); [reflexivity|cbn; auto].
  - intros o I C n. reflexivity.
Qed.

(** ** C81: unknown operations and missing parameters are refused; nothing changes *)
Theorem C81_refuses : forall atof exp atan2 asin pow2 fuel identity o w h s p, incomplete o ->
  apply_operation atof exp atan2 asin pow2 fuel identity o w h p s = Ok (Null, w, h, s).
Proof. exact incomplete_null. Qed.
Print Assumptions C81_refuses.

Theorem C81_unreadable : forall atof exp atan2 asin pow2 fuel identity o w h s p, wf s -> unreadable o -> orc s (tick s) = true ->
  exists s', apply_operation atof exp atan2 asin pow2 fuel identity o w h p s = Ok (Null, w, h, s') /\ later s s' /\ same_mem s s'.
Proof. exact unreadable_null. Qed.
Print Assumptions C81_unreadable.

Example C81_ex : incomplete (plain "sharpen") /\ incomplete (plain "blur") /\ incomplete (with1 "crop" 3) /\
  unreadable (texted "watershed" "12 34") /\ unreadable (texted "resize" "12") /\ orc (st1 pic32) (tick (st1 pic32)) = true.
Proof.
  split; [apply not_known; intros n I N; cbn in I; repeat (destruct I as [<-|I]; [vm_compute in N; discriminate N|]); destruct I|].
  split; [apply (needs_number _ "blur"); cbn; auto; reflexivity|].
  split; [apply needs_rectangle; [reflexivity|right; left; reflexivity]|].
  split; [eexists; split; [reflexivity|]; split; [vm_compute; intuition discriminate|right; reflexivity]|].
  split; [eexists; split; [reflexivity|]; split; [vm_compute; intuition discriminate|left; split; [reflexivity|vm_compute; intuition discriminate]]|].
  reflexivity.
Qed.

(** ** C82: refuted: lack of memory for the copy of a text is not survived *)
Theorem C82_text_memory_refuted : forall atof exp atan2 asin pow2 fuel identity o w h s p,
  copies_text o -> ~ incomplete o -> orc s (tick s) = false ->
  apply_operation atof exp atan2 asin pow2 fuel identity o w h p s = UB NullDeref.
Proof. exact text_copy_fails. Qed.
Print Assumptions C82_text_memory_refuted.

Lemma watershed_complete t : ~ incomplete (texted "watershed" t).
Proof.
  intros [K|n N I P|N S P|N P|n N I P|N S|N P|N P]; try (vm_compute in N; discriminate N); try discriminate S.
  - apply (K "watershed"); [cbn; tauto|reflexivity].
  - cbn in I. repeat (destruct I as [<-|I]; [vm_compute in N; discriminate N|]). destruct I.
  - cbn in I. repeat (destruct I as [<-|I]; [vm_compute in N; discriminate N|]). destruct I.
Qed.
Example C82_ex : copies_text (texted "watershed" "0x0 2x1") /\ ~ incomplete (texted "watershed" "0x0 2x1") /\
  orc (st1_oom pic32) (tick (st1_oom pic32)) = false.
Proof. split; [split; [discriminate|do 3 right; reflexivity]|]. split; [apply watershed_complete|reflexivity]. Qed.

(** ** C83: refuted: drawing on a picture of 2^29 pixels or more *)
Theorem C83_big_refuted : forall atof exp atan2 asin pow2 fuel identity o w h s p,
  usual w h -> 536870911 < w * h -> named o "circle" \/ named o "disk" -> ~ incomplete o -> orc s (tick s) = true ->
  apply_operation atof exp atan2 asin pow2 fuel identity o w h p s = UB SignedOverflow.
Proof. exact shape_big. Qed.
Print Assumptions C83_big_refuted.

Lemma disk_complete : ~ incomplete ex_disk.
Proof.
  intros [K|n N I P|N S P|N P|n N I P|N S|N P|N P]; try (vm_compute in N; discriminate N); try discriminate S.
  - apply (K "disk"); [cbn; tauto|reflexivity].
  - cbn in I. repeat (destruct I as [<-|I]; [vm_compute in N; discriminate N|]). destruct I.
  - destruct P as [P|[P|[P|P]]]; discriminate P.
Qed.
Example C83_ex : usual 32768 16384 /\ 536870911 < 32768 * 16384 /\ named ex_disk "disk" /\ ~ incomplete ex_disk.
Proof. split; [unfold usual; lia|]. split; [lia|]. split; [reflexivity|apply disk_complete]. Qed.

(** ** C84: refuted: numbers that do not fit an integer *)
Theorem C84_numbers_refuted : forall atof exp atan2 asin pow2 fuel identity o w h s p b x,
  usual w h -> wf s -> holds s p b -> image (w * h * 4) b -> (forall n, orc s n = true) -> ~ incomplete o ->
  op_p1 o = Some x -> dfinite x = true ->
  (named o "border" \/ named o "extract_document_to") /\ ~ is_u32 (int_part x) \/
  (named o "erode" \/ named o "dilate" \/ named o "close" \/ named o "open" \/ named o "rotate" \/ named o "crop") /\ ~ is_i32 (int_part x) ->
  apply_operation atof exp atan2 asin pow2 fuel identity o w h p s = UB BadCast.
Proof. exact number_too_big. Qed.
Print Assumptions C84_numbers_refuted.

Example C84_ex : ~ incomplete (with1 "erode" 3000000000) /\ dfinite (d_of_Z 3000000000) = true /\
  ~ is_i32 (int_part (d_of_Z 3000000000)) /\
  parse_pipeline ap_atof (fun _ => 0) (fun _ _ => []) true [txt "erode"; txt "3000000000"] = Ok (Some [with1 "erode" 3000000000]).
Proof.
  split; [|split; [reflexivity|split; [|reflexivity]]].
  - intros [K|n N I P|N S P|N P|n N I P|N S|N P|N P]; try (vm_compute in N; discriminate N); try discriminate S.
    + apply (K "erode"); [cbn; tauto|reflexivity].
    + discriminate P.
    + cbn in I. repeat (destruct I as [<-|I]; [vm_compute in N; discriminate N|]). destruct I.
  - replace (int_part (d_of_Z 3000000000)) with 3000000000 by (vm_compute; reflexivity). unfold is_i32. lia.
Qed.

(** ** C85: refuted: the operations that look for a document, on a black picture *)
Theorem C85_black_refuted : forall atof exp atan2 asin pow2 fuel identity o w h s p b,
  exp_ok exp -> atan2_ok atan2 -> 66565 < Z.of_nat fuel ->
  usual w h -> wf s -> holds s p b -> image (w * h * 4) b -> (forall n, orc s n = true) -> all_black w h b ->
  named o "detect_corners" \/ named o "draw_corners" \/ named o "extract_document" \/
  named o "extract_document_to" /\ (exists x y, op_p1 o = Some x /\ op_p2 o = Some y /\ dfinite x = true /\ dfinite y = true /\
    is_u32 (int_part x) /\ is_u32 (int_part y)) ->
  exists u, apply_operation atof exp atan2 asin pow2 fuel identity o w h p s = UB u.
Proof. exact corners_black. Qed.
Print Assumptions C85_black_refuted.

Definition black21 : list Z := [0; 0; 0; 255; 0; 0; 0; 0].
Example C85_ex : exp_ok exp_round /\ atan2_ok toy_atan2 /\ usual 2 1 /\ wf (st1 black21) /\
  holds (st1 black21) (Ptr 0) (of_list black21) /\ image (2 * 1 * 4) (of_list black21) /\ all_black 2 1 (of_list black21) /\
  named (plain "extract_document") "extract_document".
Proof.
  split; [exact exp_round_ok|]. split; [exact toy_ok|]. split; [unfold usual; lia|]. split; [apply wf_st1|]. split; [apply holds_st1|].
  split; [apply image_of_list; reflexivity|]. split; [|reflexivity].
  intros x y c [Hx Hy] Hc. assert (Hx' : x = 0 \/ x = 1) by lia. assert (y = 0) as -> by lia.
  assert (Hc' : c = 0 \/ c = 1 \/ c = 2) by lia. destruct Hx' as [-> | ->], Hc' as [-> | [-> | ->]]; reflexivity.
Qed.
