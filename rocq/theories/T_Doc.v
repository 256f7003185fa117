(** * Theorems C92-C95: finding and extracting a document *)
From Coq Require Import Reals String.
From Verif Require Import Base F Heap Spec Spec_Draw Spec_Cli Spec_Blur Spec_Parse Spec_Exif M_Color M_Parse M_Exif P_Exif M_Cli P_Blur P_Corners
  Spec_Corners Spec_Detect M_Detect M_Apply Spec_Morph Spec_Apply M_Main Spec_Main ExUtil Spec_Doc P_Doc.
From Verif Require Import Spec_Persp Spec_Extract P_Extract.
Local Open Scope string_scope.
Local Open Scope list_scope.
Local Open Scope Z_scope.

(** ** C92: the operation "detect_corners" hands on a copy of the picture, *)
Theorem C92_detect : forall atof exp at2 asin pow2 fuel identity o w h s p b,
  exp_ok exp -> atan2_ok at2 -> 66565 < Z.of_nat fuel -> usual w h -> w * h <= 536870911 ->
  wf s -> holds s p b -> image (w * h * 4) b -> (forall n, orc s n = true) -> named o "detect_corners" ->
  looks at2 asin w h b s (apply_operation atof exp at2 asin pow2 fuel identity o w h p s)
    (fun _ s1 run => makes s1 run w h (fun b' => exact_image (w * h * 4) b' /\ same_bytes (w * h * 4) b b')).
Proof. exact do_detect. Qed.
Print Assumptions C92_detect.

(** "draw_corners" a copy with red disks, *)
Theorem C92_draw : forall atof exp at2 asin pow2 fuel identity o w h s p b,
  exp_ok exp -> atan2_ok at2 -> 66565 < Z.of_nat fuel -> usual w h -> w * h <= 536870911 ->
  wf s -> holds s p b -> image (w * h * 4) b -> (forall n, orc s n = true) -> named o "draw_corners" ->
  looks at2 asin w h b s (apply_operation atof exp at2 asin pow2 fuel identity o w h p s)
    (fun c s1 run => makes s1 run w h (red_disks w h c b)).
Proof. exact do_draw_corners. Qed.
Print Assumptions C92_draw.

(** and "flatcv INPUT detect_corners" writes nothing and ends with status 0. *)
Theorem C92_main : forall atof atoi show2 exp atan2 asin pow2 fuel identity file decode can_write input w h b o s,
  exp_ok exp -> atan2_ok atan2 -> 66565 < Z.of_nat fuel -> wf s -> (forall n, orc s n = true) ->
  decode (file input) = Some (w, h, b) -> usual w h -> w * h <= 536870911 -> image (w * h * 4) b ->
  (jpeg_in input -> get_exif_orientation fuel (file input) = Ok o) -> (~ jpeg_in input -> o = 1) ->
  exists w1 h1 b1, seen o w h b w1 h1 b1 /\
    looks atan2 asin w1 h1 b1 s
      (main atof atoi show2 exp atan2 asin pow2 fuel identity file decode can_write [input; txt "detect_corners"] s)
      (fun _ s1 run => run = Ok ((0, None), s1)).
Proof. exact main_detect. Qed.
Print Assumptions C92_main.

Example C92_ex : exp_ok exp_round /\ atan2_ok toy_atan2 /\ usual 3 2 /\ 3 * 2 <= 536870911 /\
  wf (st1 pic32) /\ holds (st1 pic32) (Ptr 0) (of_list pic32) /\ image (3 * 2 * 4) (of_list pic32) /\ (forall n, orc (st1 pic32) n = true) /\
  named (mkop (txt "detect_corners") None None None None None) "detect_corners" /\
  named (mkop (txt "draw_corners") None None None None None) "draw_corners" /\
  let file p := if streq p (txt "a.b/in.JPG") then Some (exif_file sample_segs 1000 (sample_tiff 6)) else None in
  jpeg_in (txt "a.b/in.JPG") /\ get_exif_orientation 100 (file (txt "a.b/in.JPG")) = Ok 6.
Proof.
  split; [exact exp_round_ok|]. split; [exact toy_ok|]. split; [unfold usual; lia|]. split; [lia|]. split; [apply wf_st1|]. split; [apply holds_st1|].
  split; [apply pic32_hyps|]. split; [reflexivity|]. split; [reflexivity|]. split; [reflexivity|]. cbv zeta.
  split; [right; right; left; exists (txt "a.b/in"); reflexivity|vm_compute; reflexivity].
Qed.

(** ** C93: the corners found lie on the picture, any two of them at least a 22nd of
    its width or height apart *)
Theorem C93_position : forall ex at2 asin fuel w h s p b, exp_ok ex -> atan2_ok at2 ->
  0 < w -> 0 < h -> w * h <= 1073741824 -> 66565 < Z.of_nat fuel -> wf s -> holds s p b -> image (w * h * 4) b ->
  (forall n, orc s n = true) ->
  looks at2 asin w h b s (detect_corners ex at2 asin fuel p w h s) (fun c s1 run => run = Ok (c, s1) /\
    Forall (on_picture w h) (four c) /\ ForallOrdPairs (apart_by (IZR w / 22) (IZR h / 22)) (four c)).
Proof. exact detect_position. Qed.
Print Assumptions C93_position.

(** ** C94: "extract_document_to" shows the document in the requested size.  Missing:
    matrices that are not tame (see C74) and how exactly the matrix maps the corners
    (see C48). *)
Theorem C94_extract_to_partial : forall atof exp at2 asin pow2 fuel identity o w h s p b,
  exp_ok exp -> atan2_ok at2 -> 66565 < Z.of_nat fuel -> usual w h -> w * h <= 536870911 ->
  wf s -> holds s p b -> image (w * h * 4) b -> (forall n, orc s n = true) -> holds_mat s identity identity_matrix ->
  forall x y, named o "extract_document_to" -> op_p1 o = Some x -> op_p2 o = Some y ->
  dfinite x = true -> dfinite y = true -> fair_size (int_part x) (int_part y) ->
  looks at2 asin w h b s (apply_operation atof exp at2 asin pow2 fuel identity o w h p s)
    (fun c s1 run => extracts identity c w h b (int_part x) (int_part y) s1 run).
Proof. exact do_extract_to. Qed.
Print Assumptions C94_extract_to_partial.

(** ** C95: "extract_document" shows it in the size of its longer sides *)
Theorem C95_extract_partial : forall atof exp at2 asin pow2 fuel identity o w h s p b,
  exp_ok exp -> atan2_ok at2 -> 66565 < Z.of_nat fuel -> usual w h -> w * h <= 536870911 ->
  wf s -> holds s p b -> image (w * h * 4) b -> (forall n, orc s n = true) -> holds_mat s identity identity_matrix ->
  pow2_ok pow2 -> named o "extract_document" ->
  looks at2 asin w h b s (apply_operation atof exp at2 asin pow2 fuel identity o w h p s)
    (fun c s1 run => exists ow oh, document_size c ow oh /\ (fair_size ow oh -> extracts identity c w h b ow oh s1 run)).
Proof. exact do_extract. Qed.
Print Assumptions C95_extract_partial.

(** A picture of 3 x 2 pixels in block 0, the static identity matrix in block 1 *)
Definition st_doc : st :=
  mkst (fun i => if i =? 0 then Some (OBytes (of_list pic32)) else if i =? 1 then Some (OMat identity_matrix) else None) 2 (fun _ => true) 0.
Definition extract_40x30 : pipeline_op := mkop (txt "extract_document_to") (Some (d_of_Z 40)) (Some (d_of_Z 30)) None None None.
Example C94_ex : usual 3 2 /\ wf st_doc /\ holds st_doc (Ptr 0) (of_list pic32) /\ image (3 * 2 * 4) (of_list pic32) /\
  (forall n, orc st_doc n = true) /\ holds_mat st_doc (Ptr 1) identity_matrix /\ pow2_ok (fun x => dmul x x) /\
  named extract_40x30 "extract_document_to" /\ dfinite (d_of_Z 40) = true /\ dfinite (d_of_Z 30) = true /\
  fair_size (int_part (d_of_Z 40)) (int_part (d_of_Z 30)) /\
  named (mkop (txt "extract_document") None None None None None) "extract_document".
Proof.
  split; [unfold usual; lia|]. split.
  { intros i Hi. cbn [nxt st_doc] in Hi. cbn [mem st_doc]. replace (i =? 0) with false by lia. replace (i =? 1) with false by lia. reflexivity. }
  split; [exists 0; auto|]. split; [apply pic32_hyps|]. split; [reflexivity|]. split; [exists 1; auto|]. split; [exact square_ok|].
  split; [reflexivity|]. split; [vm_compute; reflexivity|]. split; [vm_compute; reflexivity|]. split; [|reflexivity].
  replace (int_part (d_of_Z 40)) with 40 by (vm_compute; reflexivity). replace (int_part (d_of_Z 30)) with 30 by (vm_compute; reflexivity).
  unfold fair_size. lia.
Qed.
