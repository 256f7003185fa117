(** * Theorems C86-C89: the program as a whole *)
From Coq Require Import Reals String.
From Verif Require Import Base F Heap Spec Spec_Draw Spec_Cli Spec_Blur Spec_Parse Spec_Exif M_Color M_Parse M_Exif P_Exif M_Cli P_Blur P_Corners
  Spec_Corners Spec_Detect M_Detect M_Apply Spec_Morph Spec_Apply M_Main Spec_Main P_Main ExUtil.
Local Open Scope string_scope.
Local Open Scope list_scope.
Local Open Scope Z_scope.

(** ** C86: "flatcv INPUT OPERATIONS OUTPUT" on a picture that can be read, with
    operations that suit it: everything is released; without memory nothing is
    written and the status is 1; otherwise the file holds the picture, turned
    upright, after all the operations.
    [can_write] tells whether a file can be written, [decode] is the decoder of the
    image formats, [file] are the files.  Memory must suffice for copies of texts
    (see C82) and for turning the picture upright (see C58). *)
Theorem C86_run : forall atof atoi show2 exp atan2 asin pow2 fuel identity file decode can_write input wds output ops w h b o s,
  exp_ok exp -> 1073741825 < Z.of_nat fuel -> wf s -> wds <> [] ->
  parse_pipeline atof atoi show2 true wds = Ok (Some ops) -> ops <> [] ->
  decode (file input) = Some (w, h, b) -> usual w h -> image (w * h * 4) b ->
  (jpeg_in input -> get_exif_orientation fuel (file input) = Ok o) -> (~ jpeg_in input -> o = 1) ->
  (forall w1 h1 b1, seen o w h b w1 h1 b1 -> ready atof ops w1 h1 b1) ->
  text_memory ops (orc s) -> (2 <= o <= 8 -> forall n, orc s n = true) ->
  exists code out s',
    main atof atoi show2 exp atan2 asin pow2 fuel identity file decode can_write (input :: wds ++ [output]) s = Ok ((code, out), s') /\
    later s s' /\ same_mem s s' /\
    match out with
    | None => code = 1 /\ alloc_failed s s'
    | Some f =>
        code = (if can_write f then 0 else 1) /\ w_path f = output /\ (w_format f = JPEG <-> jpeg_out output) /\
        (w_warned f = true <-> jpeg_out output /\ binarizes ops) /\
        exact_image (w_width f * w_height f * 4) (w_data f) /\
        exists w1 h1 b1, seen o w h b w1 h1 b1 /\ composed (effect atof) ops w1 h1 b1 (w_width f) (w_height f) (w_data f)
    end.
Proof. exact main_ok. Qed.
Print Assumptions C86_run.

Definition m_atof (s : cstr) : f64 := d_of_Z (decimal 0 s).
(** One file, a JPEG stored turned (orientation 6), whose pixels are those of a
    3x2 picture. *)
Definition m_file (p : cstr) : option (list Z) :=
  if streq p (txt "a.b/in.JPG") then Some (exif_file sample_segs 1000 (sample_tiff 6)) else None.
Definition m_decode (f : option (list Z)) : option (Z * Z * buf Z) :=
  match f with Some _ => Some (3, 2, of_list pic32) | None => None end.
Definition st0 : st := mkst (fun _ => None) 0 (fun _ => true) 0.
Definition m_run (args : list string) : option (Z * option (file_format * Z * Z * list (option Z) * bool)) :=
  match main m_atof (fun _ => 0) (fun _ _ => []) exp_round toy_atan2 (fun x => x) (fun x => x) 100 Null m_file m_decode (fun _ => true)
          (List.map txt args) st0 with
  | Ok (code, None, _) => Some (code, None)
  | Ok (code, Some f, _) => Some (code, Some (w_format f, w_width f, w_height f, to_list (w_data f), w_warned f))
  | _ => None
  end.
Definition m_wds : list cstr := [txt "flip_x,(erode"; txt "1)"].
Definition m_ops : list pipeline_op := [mkop (txt "flip_x") None None None None None; mkop (txt "erode") (Some (d_of_Z 1)) None None None None].

Example C86_ex : wf st0 /\ parse_pipeline m_atof (fun _ => 0) (fun _ _ => []) true m_wds = Ok (Some m_ops) /\
  m_decode (m_file (txt "a.b/in.JPG")) = Some (3, 2, of_list pic32) /\ usual 3 2 /\ image (3 * 2 * 4) (of_list pic32) /\
  jpeg_in (txt "a.b/in.JPG") /\ get_exif_orientation 100 (m_file (txt "a.b/in.JPG")) = Ok 6 /\
  (forall w1 h1 b1, seen 6 3 2 (of_list pic32) w1 h1 b1 -> ready m_atof m_ops w1 h1 b1) /\ (forall n, orc st0 n = true) /\
  m_run ["a.b/in.JPG"; "flip_x"; "out.jpg"] = Some (0, Some (JPEG, 2, 3,
    List.map Some [1;2;3;255; 7;8;9;0; 10;20;30;255; 40;50;60;255; 100;110;120;128; 200;210;220;1], false)) /\
  m_run ["a.b/in.JPG"; "flip_x,"; "threshold"; "out.jpeg"] = Some (0, Some (JPEG, 2, 3,
    List.map Some [0;0;0;255; 0;0;0;255; 0;0;0;255; 0;0;0;255; 255;255;255;255; 255;255;255;255], true)) /\
  m_run ["a.b/in.JPG"; "threshold"; "flip_y"] = Some (0, Some (PNG, 2, 3,
    List.map Some [0;0;0;255; 0;0;0;255; 0;0;0;255; 0;0;0;255; 255;255;255;255; 255;255;255;255], false)).
Proof.
  split; [intros i _; reflexivity|]. split; [reflexivity|]. split; [reflexivity|]. split; [unfold usual; lia|].
  split; [apply pic32_hyps|]. split; [right; right; left; exists (txt "a.b/in"); reflexivity|]. split; [vm_compute; reflexivity|].
  split.
  { intros w1 h1 b1 _. cbn [ready m_ops]. split; [apply (fit_plain _ _ _ _ _ "flip_x"); [reflexivity|cbn; auto]|].
    intros w2 h2 b2 _. split; [|auto]. eapply (fit_morph _ _ _ _ _ "erode"); try reflexivity; [cbn; auto|].
    replace (int_part (d_of_Z 1)) with 1 by (vm_compute; reflexivity). lia. }
  split; [reflexivity|]. split; [vm_compute; reflexivity|]. split; vm_compute; reflexivity.
Qed.

(** ** C87: without an operation, with unknown words or without a readable picture
    nothing is written, and the status is 1 *)
Theorem C87_nothing : forall atof atoi show2 exp atan2 asin pow2 fuel identity file decode can_write (args : list cstr) s,
  (List.length args < 2)%nat \/
  (List.length args = 2%nat /\ nth 1 args [] <> txt "detect_corners") \/
  (exists input wds output, args = input :: wds ++ [output] /\ wds <> [] /\
     (parse_pipeline atof atoi show2 true wds = Ok None \/ parse_pipeline atof atoi show2 true wds = Ok (Some []) \/
      exists ops, parse_pipeline atof atoi show2 true wds = Ok (Some ops) /\ decode (file input) = None)) ->
  main atof atoi show2 exp atan2 asin pow2 fuel identity file decode can_write args s = Ok ((1, None), s).
Proof. exact main_nothing. Qed.
Print Assumptions C87_nothing.

Example C87_ex : List.length [txt "in.png"; txt "flip_x"] = 2%nat /\ nth 1 [txt "in.png"; txt "flip_x"] [] <> txt "detect_corners" /\
  parse_pipeline m_atof (fun _ => 0) (fun _ _ => []) true [txt "crop"; txt "3by2"] = Ok None /\
  parse_pipeline m_atof (fun _ => 0) (fun _ _ => []) true [txt ","] = Ok (Some []) /\
  m_decode (m_file (txt "in.png")) = None.
Proof.
  split; [reflexivity|]. split; [vm_compute; discriminate|]. split; [reflexivity|]. split; [reflexivity|].
  vm_compute; reflexivity.
Qed.

(** ** C88: refuted: a file named ".JPG", which is accepted as JPEG when read, is
    written as PNG *)
Theorem C88_format_refuted : forall atof atoi show2 exp atan2 asin pow2 fuel identity file decode can_write input wds output ops w h b o s,
  exp_ok exp -> 1073741825 < Z.of_nat fuel -> wf s -> wds <> [] ->
  parse_pipeline atof atoi show2 true wds = Ok (Some ops) -> ops <> [] ->
  decode (file input) = Some (w, h, b) -> usual w h -> image (w * h * 4) b ->
  (jpeg_in input -> get_exif_orientation fuel (file input) = Ok o) -> (~ jpeg_in input -> o = 1) ->
  (forall w1 h1 b1, seen o w h b w1 h1 b1 -> ready atof ops w1 h1 b1) -> (forall n, orc s n = true) ->
  ends_in output ".JPG" ->
  jpeg_in output /\ exists code f s',
    main atof atoi show2 exp atan2 asin pow2 fuel identity file decode can_write (input :: wds ++ [output]) s = Ok ((code, Some f), s') /\
    w_path f = output /\ w_format f = PNG.
Proof. exact main_JPG. Qed.
Print Assumptions C88_format_refuted.

Example C88_ex : m_run ["a.b/in.JPG"; "flip_x"; "out.JPG"] = Some (0, Some (PNG, 2, 3,
    List.map Some [1;2;3;255; 7;8;9;0; 10;20;30;255; 40;50;60;255; 100;110;120;128; 200;210;220;1], false)) /\
  ends_in (txt "out.JPG") ".JPG".
Proof. split; [vm_compute; reflexivity|exists (txt "out"); reflexivity]. Qed.

(** ** C89: refuted: saving a picture of 2^29 columns *)
Theorem C89_wide_refuted : forall atof atoi show2 exp atan2 asin pow2 fuel identity file decode can_write input output b s,
  wf s -> (forall n, orc s n = true) -> ~ jpeg_in input -> ~ jpeg_out output ->
  atof (txt "536870912") = d_of_Z 536870912 -> atof (txt "1") = d_of_Z 1 ->
  decode (file input) = Some (1, 1, b) -> image 4 b ->
  main atof atoi show2 exp atan2 asin pow2 fuel identity file decode can_write
    [input; txt "resize"; txt "536870912x1"; output] s = UB SignedOverflow.
Proof. exact wide_png. Qed.
Print Assumptions C89_wide_refuted.

Example C89_ex : wf st0 /\ (forall n, orc st0 n = true) /\ ~ jpeg_in (txt "in.png") /\ ~ jpeg_out (txt "out.png") /\
  m_atof (txt "536870912") = d_of_Z 536870912 /\ m_atof (txt "1") = d_of_Z 1 /\ image 4 (of_list [1; 2; 3; 255]).
Proof.
  split; [intros i _; reflexivity|]. split; [reflexivity|].
  split; [rewrite <- is_jpeg_iff; vm_compute; discriminate|]. split; [rewrite <- format_iff; vm_compute; discriminate|].
  split; [reflexivity|]. split; [reflexivity|]. apply image_of_list; reflexivity.
Qed.

(** ** C85: "flatcv INPUT detect_corners" on a black picture *)
Theorem C85_main_refuted : forall atof atoi show2 exp atan2 asin pow2 fuel identity file decode can_write input w h b s,
  exp_ok exp -> atan2_ok atan2 -> 66565 < Z.of_nat fuel -> wf s -> (forall n, orc s n = true) -> ~ jpeg_in input ->
  decode (file input) = Some (w, h, b) -> usual w h -> image (w * h * 4) b -> all_black w h b ->
  exists u, main atof atoi show2 exp atan2 asin pow2 fuel identity file decode can_write [input; txt "detect_corners"] s = UB u.
Proof. exact main_black. Qed.
Print Assumptions C85_main_refuted.
