(** * Theorems C40-C42, C58-C61: the command line's picture handling *)
From Verif Require Import Base F Heap HeapLemmas Spec Spec_Draw Spec_Cli M_Geom M_Cli P_Cli ExUtil.

(** ** C40: executing a pipeline *)
Theorem C40_pipeline : forall (op : Type) (apply : op -> Z -> Z -> ptr -> M (ptr * Z * Z))
    (Inv : Z -> Z -> buf Z -> Prop) (R : op -> Z -> Z -> buf Z -> Z -> Z -> buf Z -> Prop) (ops : list op),
  (forall o, In o ops -> op_safe Inv (apply o) (R o)) ->
  forall w h i s b, wf s -> mem s i = Some (OBytes b) -> Inv w h b ->
  exists q w' h' s', execute_pipeline apply w h ops (Ptr i) s = Ok (q, w', h', s') /\ later s s' /\
    match q with
    | Null => same_mem s s'
    | Ptr j =>
        (ops = [] /\ j = i /\ w' = w /\ h' = h /\ s' = s) \/
        (ops <> [] /\ mem s j = None /\
         (exists b', mem s' j = Some (OBytes b') /\ Inv w' h' b' /\ composed R ops w h b w' h' b') /\
         (forall k, k <> j -> mem s' k = mem s k))
    end.
Proof. exact @pipeline_ok. Qed.
Print Assumptions C40_pipeline.

(** Three operations meeting the hypothesis: turn by 90 degrees, crop 2x2-1+1,
    turn by -450 degrees. *)
Definition ex_apply (a : f64 + (f64 * f64 * f64 * f64)) : Z -> Z -> ptr -> M (ptr * Z * Z) :=
  match a with inl a => rotate_op true a | inr (a1, a2, a3, a4) => crop_op true a1 a2 a3 a4 end.
Definition ex_R (a : f64 + (f64 * f64 * f64 * f64)) : Z -> Z -> buf Z -> Z -> Z -> buf Z -> Prop :=
  match a with
  | inl a => turned (int_part a / 90)
  | inr (a1, a2, a3, a4) => fun w h b w' h' b' => int_part a1 < w /\ int_part a2 < h /\
      cropped (int_part a1) (int_part a2) (int_part a3) (int_part a4) w h b w' h' b'
  end.
Definition ex_ops : list (f64 + (f64 * f64 * f64 * f64)) :=
  [inl (d_of_Z 90); inr (d_of_Z (-1), d_of_Z 1, d_of_Z 2, d_of_Z 2); inl (d_of_Z (-450))].
Definition pic_out (r : res (ptr * Z * Z * st)) : option (Z * Z * list (option Z)) :=
  match r with
  | Ok (p, w, h, s) => match out_bytes (Ok (p, s)) with Some l => Some (w, h, l) | None => None end
  | _ => None
  end.
Lemma pic32_cli : cli_picture 3 2 (of_list pic32).
Proof. split; [unfold cli_dims, SIZE_MAX; lia|apply pic32_hyps]. Qed.

Example C40_pipeline_ex :
  (forall o, In o ex_ops -> op_safe cli_picture (ex_apply o) (ex_R o)) /\
  wf (st1 pic32) /\ mem (st1 pic32) 0 = Some (OBytes (of_list pic32)) /\ cli_picture 3 2 (of_list pic32) /\
  pic_out (execute_pipeline ex_apply 3 2 ex_ops (Ptr 0) (st1 pic32)) =
    Some (2, 2, map Some [10;20;30;255; 100;110;120;128; 40;50;60;255; 200;210;220;1]) /\
  (match execute_pipeline ex_apply 3 2 ex_ops (Ptr 0) (st1 pic32) with
   | Ok (_, _, _, s) => (match mem s 0 with Some _ => true | None => false end, match mem s 1 with Some _ => true | None => false end,
                         match mem s 2 with Some _ => true | None => false end, match mem s 3 with Some _ => true | None => false end)
   | _ => (false, true, true, false) end) = (true, false, false, true).
Proof.
  split.
  - intros o [<-|[<-|[<-|[]]]].
    + apply rotate_safe; [reflexivity|unfold is_i32; vm_compute; split; intros H; discriminate H].
    + apply crop_safe; try reflexivity; unfold is_i32, is_u32; vm_compute; split; first [reflexivity | intros H; discriminate H].
    + apply rotate_safe; [reflexivity|unfold is_i32; vm_compute; split; intros H; discriminate H].
  - split; [apply wf_st1|]. split; [reflexivity|]. split; [exact pic32_cli|]. split; vm_compute; reflexivity.
Qed.

(** ** C60: whatever happens, a run ends with every picture released *)
Theorem C60_run : forall (op : Type) (apply : op -> Z -> Z -> ptr -> M (ptr * Z * Z))
    (Inv : Z -> Z -> buf Z -> Prop) (R : op -> Z -> Z -> buf Z -> Z -> Z -> buf Z -> Prop)
    is_jpeg orientation (ops : list op) write_ok w h i s b,
  (forall o, In o ops -> op_safe Inv (apply o) (R o)) ->
  (forall w h b, cli_dims w h -> image (w * h * 4) b -> Inv w h b) ->
  wf s -> mem s i = Some (OBytes b) -> cli_dims w h -> image (w * h * 4) b ->
  exists code s', process_image apply is_jpeg orientation w h ops write_ok (Ptr i) s = Ok (code, s') /\ later s s' /\
    (code = 0 \/ code = 1) /\
    mem s' i = None /\ forall j, j <> i -> mem s' j = mem s j.
Proof. exact @process_ok. Qed.
Print Assumptions C60_run.

Example C60_run_ex :
  (forall o, In o ex_ops -> op_safe cli_picture (ex_apply o) (ex_R o)) /\
  (forall w h b, cli_dims w h -> image (w * h * 4) b -> cli_picture w h b) /\
  (match process_image ex_apply true 6 3 2 ex_ops true (Ptr 0) (st1 pic32) with
   | Ok (c, s) => (c, map (fun i => match mem s i with Some _ => true | None => false end) [0;1;2;3;4]) | _ => (2, []) end)
  = (0, [false; false; false; false; false]).
Proof. split; [apply C40_pipeline_ex|]. split; [split; auto|]. vm_compute. reflexivity. Qed.

(** ** C41: rotate *)
Theorem C41_rotate : forall w h s p b a k,
  wf s -> cli_dims w h -> holds s p b -> image (w * h * 4) b ->
  dfinite a = true -> is_i32 (int_part a) -> int_part a = 90 * k ->
  returns_pic s w h (rotate_op true a w h p s) (turned k w h b).
Proof. exact rotate_op_ok. Qed.
Print Assumptions C41_rotate.

Theorem C41_rejects : forall w h s p a,
  dfinite a = true -> is_i32 (int_part a) -> (int_part a) mod 90 <> 0 ->
  rotate_op true a w h p s = Ok (Null, w, h, s).
Proof. exact rotate_op_rejects. Qed.
Print Assumptions C41_rejects.

Example C41_rotate_ex :
  (wf (st1 pic32) /\ cli_picture 3 2 (of_list pic32) /\ holds (st1 pic32) (Ptr 0) (of_list pic32)) /\
  dfinite (d_of_Z (-630)) = true /\ int_part (d_of_Z (-630)) = 90 * -7 /\ is_i32 (90 * -7) /\
  pic_out (rotate_op true (d_of_Z (-630)) 3 2 (Ptr 0) (st1 pic32)) =
    Some (2, 3, map Some [7;8;9;0; 1;2;3;255; 40;50;60;255; 10;20;30;255; 200;210;220;1; 100;110;120;128]) /\
  int_part (d_of_Z (-91)) mod 90 <> 0.
Proof.
  split; [split; [apply wf_st1|split; [exact pic32_cli|apply holds_st1]]|].
  split; [reflexivity|]. split; [vm_compute; reflexivity|]. split; [unfold is_i32; lia|].
  split; [vm_compute; reflexivity|]. vm_compute. discriminate.
Qed.

(** ** C61: an angle that does not fit an int is undefined behaviour *)
Theorem C61_every_angle_refuted : exists a, dfinite a = true /\ int_part a = 3600000000 /\ int_part a mod 90 = 0 /\
  forall w h s p, rotate_op true a w h p s = UB BadCast.
Proof.
  exists (d_of_Z 3600000000). split; [reflexivity|]. split; [vm_compute; reflexivity|]. split; [vm_compute; reflexivity|].
  intros. reflexivity.
Qed.
Print Assumptions C61_every_angle_refuted.

(** ** C42: EXIF orientation *)
Theorem C42_exif : forall o w h s i b,
  wf s -> cli_picture w h b -> mem s i = Some (OBytes b) -> 2 <= o <= 8 ->
  exists q w' h' s', apply_exif o w h (Ptr i) s = Ok (q, w', h', s') /\ later s s' /\
    ((exists j b', q = Ptr j /\ replaced s s' i j b' /\ upright o w h b w' h' b') \/
     (q = Ptr i /\ same_mem s s' /\ alloc_failed s s')).
Proof. exact apply_exif_main. Qed.
Print Assumptions C42_exif.

Theorem C42_plain : forall o w h s p, o <= 1 \/ 8 < o -> apply_exif o w h p s = Ok (p, w, h, s).
Proof. exact apply_exif_plain. Qed.
Print Assumptions C42_plain.

Example C42_exif_ex :
  wf (st1 pic32) /\ cli_picture 3 2 (of_list pic32) /\ mem (st1 pic32) 0 = Some (OBytes (of_list pic32)) /\
  pic_out (apply_exif 6 3 2 (Ptr 0) (st1 pic32)) =
    Some (2, 3, map Some [7;8;9;0; 1;2;3;255; 40;50;60;255; 10;20;30;255; 200;210;220;1; 100;110;120;128]) /\
  pic_out (apply_exif 7 3 2 (Ptr 0) (st1 pic32)) =
    Some (2, 3, map Some [200;210;220;1; 100;110;120;128; 40;50;60;255; 10;20;30;255; 7;8;9;0; 1;2;3;255]).
Proof.
  split; [apply wf_st1|]. split; [exact pic32_cli|]. split; [reflexivity|]. split; vm_compute; reflexivity.
Qed.

(** ** C58: when the allocation for undoing the orientation fails, the run goes
    on with the stored picture but the dimensions of the upright one *)
Theorem C58_exif_failure_refuted : exists o w h s i b s',
  wf s /\ cli_picture w h b /\ mem s i = Some (OBytes b) /\
  apply_exif o w h (Ptr i) s = Ok (Ptr i, h, w, s') /\ same_mem s s' /\ w <> h.
Proof.
  exists 6, 3, 2, (st1_oom pic32), 0, (of_list pic32), (mkst (mem (st1_oom pic32)) 1 (fun _ => false) 1).
  split; [apply wf_st1_oom|]. split; [exact pic32_cli|]. split; [reflexivity|]. split; [reflexivity|].
  split; [intros j; reflexivity|lia].
Qed.
Print Assumptions C58_exif_failure_refuted.

(** ** C59: crop *)
Theorem C59_crop : forall w h s p b a1 a2 a3 a4,
  wf s -> cli_dims w h -> holds s p b -> image (w * h * 4) b ->
  dfinite a1 = true -> is_i32 (int_part a1) -> dfinite a2 = true -> is_i32 (int_part a2) ->
  dfinite a3 = true -> is_u32 (int_part a3) -> dfinite a4 = true -> is_u32 (int_part a4) ->
  0 < int_part a3 -> 0 < int_part a4 -> int_part a1 < w -> int_part a2 < h ->
  returns_pic s w h (crop_op true a1 a2 a3 a4 w h p s)
    (cropped (int_part a1) (int_part a2) (int_part a3) (int_part a4) w h b).
Proof. exact crop_op_ok. Qed.
Print Assumptions C59_crop.

Theorem C59_rejects : forall w h s p a1 a2 a3 a4, cli_dims w h ->
  dfinite a1 = true -> is_i32 (int_part a1) -> dfinite a2 = true -> is_i32 (int_part a2) ->
  dfinite a3 = true -> is_u32 (int_part a3) -> dfinite a4 = true -> is_u32 (int_part a4) ->
  w <= int_part a1 \/ h <= int_part a2 ->
  crop_op true a1 a2 a3 a4 w h p s = Ok (Null, w, h, s).
Proof. exact crop_op_rejects. Qed.
Print Assumptions C59_rejects.

Example C59_crop_ex :
  wf (st1 pic32) /\ cli_picture 3 2 (of_list pic32) /\ holds (st1 pic32) (Ptr 0) (of_list pic32) /\
  int_part (d_of_Z (-5)) = -5 /\ int_part (d_of_Z 4294967295) = 4294967295 /\
  pic_out (crop_op true (d_of_Z (-5)) (d_of_Z 1) (d_of_Z 2) (d_of_Z 4294967295) 3 2 (Ptr 0) (st1 pic32)) =
    Some (2, 1, map Some [7;8;9;0; 40;50;60;255]) /\
  pic_out (crop_op true (d_of_Z 3) (d_of_Z 0) (d_of_Z 1) (d_of_Z 1) 3 2 (Ptr 0) (st1 pic32)) = None.
Proof.
  split; [apply wf_st1|]. split; [exact pic32_cli|]. split; [apply holds_st1|].
  do 3 (split; [vm_compute; reflexivity|]). vm_compute; reflexivity.
Qed.
