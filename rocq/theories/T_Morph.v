(** * Theorems C20-C22, C53: binary morphology *)
From Verif Require Import Base F Heap Spec Spec_Morph M_Morph P_Morph ExUtil.

(** ** C20: dilation and erosion *)
Theorem C20_dilation : forall w h r s p b,
  wf s -> morph_ok w h r -> holds s p b -> image (w * h) b ->
  returns_fresh s (binary_dilation_disk p w h r s) (fun b' => bw_picture w h b' (dilated w h r (white b w))).
Proof. exact dilation_ok. Qed.
Print Assumptions C20_dilation.

Theorem C20_erosion : forall w h r s p b,
  wf s -> morph_ok w h r -> holds s p b -> image (w * h) b ->
  returns_fresh s (binary_erosion_disk p w h r s) (fun b' => bw_picture w h b' (eroded w h r (white b w))).
Proof. exact erosion_ok. Qed.
Print Assumptions C20_erosion.

Theorem C20_rejects : forall w h r s p, wf s -> p = Null \/ w <= 0 \/ h <= 0 \/ r < 0 ->
  returns_null s (binary_dilation_disk p w h r s) /\ returns_null s (binary_erosion_disk p w h r s) /\
  returns_null s (binary_closing_disk p w h r s) /\ returns_null s (binary_opening_disk p w h r s).
Proof. exact morph_rejects. Qed.
Print Assumptions C20_rejects.

(** With radius 0 both operators keep exactly the white pixels. *)
Theorem C20_radius_zero : forall w h (A : Z -> Z -> Prop) x y, inside w h x y ->
  (dilated w h 0 A x y <-> A x y) /\ (eroded w h 0 A x y <-> A x y).
Proof. exact radius_zero_set. Qed.
Print Assumptions C20_radius_zero.

(** A 5x4 picture: a white block of 3x3 pixels, one of them missing, and a gray
    pixel (128) that counts as black. *)
Definition morph_pic : list Z :=
  [ 255;255;255;0;0;
    255;0;255;0;0;
    255;255;255;0;0;
    0;0;0;0;128 ].
Lemma morph_pic_hyps : wf (st1 morph_pic) /\ morph_ok 5 4 1 /\ holds (st1 morph_pic) (Ptr 0) (of_list morph_pic) /\
  image (5 * 4) (of_list morph_pic).
Proof. split; [apply wf_st1|]. split; [unfold morph_ok; lia|]. split; [apply holds_st1|]. apply image_of_list; reflexivity. Qed.
Definition O := 255. (* shorthand in the expected pictures *)
Example C20_ex :
  (wf (st1 morph_pic) /\ morph_ok 5 4 1 /\ holds (st1 morph_pic) (Ptr 0) (of_list morph_pic) /\ image (5 * 4) (of_list morph_pic)) /\
  out_bytes (binary_dilation_disk (Ptr 0) 5 4 1 (st1 morph_pic)) =
    Some (map Some [O;O;O;O;0; O;O;O;O;0; O;O;O;O;0; O;O;O;O;0]) /\
  out_bytes (binary_erosion_disk (Ptr 0) 4 3 1 (st1 [O;O;O;O; O;O;O;O; O;O;O;0])) =
    Some (map Some [0;0;0;0; 0;O;0;0; 0;0;0;0]) /\
  out_bytes (binary_dilation_disk (Ptr 0) 5 4 1 (st1_oom morph_pic)) = None.
Proof. split; [exact morph_pic_hyps|]. do 2 (split; [vm_compute; reflexivity|]). vm_compute; reflexivity. Qed.

(** ** C21: what closing and opening compute (no block is left behind), and
    their order properties *)
Theorem C21_closing : forall w h r s p b,
  wf s -> morph_ok w h r -> holds s p b -> image (w * h) b ->
  returns_fresh s (binary_closing_disk p w h r s) (fun b' => bw_picture w h b'
    (eroded_rep w h r (dilated w h r (white b w)))).
Proof. exact closing_ok. Qed.
Print Assumptions C21_closing.

Theorem C21_opening : forall w h r s p b,
  wf s -> morph_ok w h r -> holds s p b -> image (w * h) b ->
  returns_fresh s (binary_opening_disk p w h r s) (fun b' => bw_picture w h b'
    (dilated w h r (eroded w h r (white b w)))).
Proof. exact opening_ok. Qed.
Print Assumptions C21_opening.

Theorem C21_closing_extensive : forall w h r b b', morph_ok w h r -> image (w * h) b ->
  calls (fun w h p => binary_closing_disk p w h r) w h b b' ->
  forall x y, inside w h x y -> white b w x y -> white b' w x y.
Proof. exact closing_extensive. Qed.
Print Assumptions C21_closing_extensive.

Theorem C21_opening_anti_extensive : forall w h r b b', morph_ok w h r -> image (w * h) b ->
  calls (fun w h p => binary_opening_disk p w h r) w h b b' ->
  forall x y, inside w h x y -> white b' w x y -> white b w x y.
Proof. exact opening_anti_extensive. Qed.
Print Assumptions C21_opening_anti_extensive.

Theorem C21_closing_increasing : forall w h r a a' b b', morph_ok w h r -> image (w * h) a -> image (w * h) b ->
  calls (fun w h p => binary_closing_disk p w h r) w h a a' ->
  calls (fun w h p => binary_closing_disk p w h r) w h b b' ->
  (forall x y, inside w h x y -> white a w x y -> white b w x y) ->
  forall x y, inside w h x y -> white a' w x y -> white b' w x y.
Proof. exact closing_increasing. Qed.
Print Assumptions C21_closing_increasing.

Theorem C21_opening_increasing : forall w h r a a' b b', morph_ok w h r -> image (w * h) a -> image (w * h) b ->
  calls (fun w h p => binary_opening_disk p w h r) w h a a' ->
  calls (fun w h p => binary_opening_disk p w h r) w h b b' ->
  (forall x y, inside w h x y -> white a w x y -> white b w x y) ->
  forall x y, inside w h x y -> white a' w x y -> white b' w x y.
Proof. exact opening_increasing. Qed.
Print Assumptions C21_opening_increasing.

Example C21_ex :
  out_bytes (binary_closing_disk (Ptr 0) 5 4 1 (st1 morph_pic)) =
    Some (map Some [O;O;O;0;0; O;O;O;0;0; O;O;O;0;0; O;O;O;0;0]) /\
  out_bytes (binary_opening_disk (Ptr 0) 4 3 1 (st1 [O;O;O;O; O;O;O;O; O;O;O;0])) =
    Some (map Some [O;O;O;0; O;O;O;0; O;O;O;0]) /\
  succeeds (fun w h p => binary_closing_disk p w h 1) 5 4 (of_list morph_pic) = true /\
  succeeds (fun w h p => binary_opening_disk p w h 1) 5 4 (of_list morph_pic) = true.
Proof. do 3 (split; [vm_compute; reflexivity|]). vm_compute; reflexivity. Qed.

(** ** C22: idempotence *)
Theorem C22_opening_idempotent : forall w h r b b1 b2, morph_ok w h r -> image (w * h) b ->
  calls (fun w h p => binary_opening_disk p w h r) w h b b1 ->
  calls (fun w h p => binary_opening_disk p w h r) w h b1 b2 -> same_bytes (w * h) b1 b2.
Proof. exact opening_idempotent. Qed.
Print Assumptions C22_opening_idempotent.

Theorem C22_closing_idempotent : forall w h r b b1 b2, morph_ok w h r -> image (w * h) b ->
  calls (fun w h p => binary_closing_disk p w h r) w h b b1 ->
  calls (fun w h p => binary_closing_disk p w h r) w h b1 b2 -> same_bytes (w * h) b1 b2.
Proof. exact closing_idempotent. Qed.
Print Assumptions C22_closing_idempotent.

Example C22_ex : image (5 * 4) (of_list morph_pic) /\ exists b1 b2,
  calls (fun w h p => binary_closing_disk p w h 1) 5 4 (of_list morph_pic) b1 /\
  calls (fun w h p => binary_closing_disk p w h 1) 5 4 b1 b2 /\ to_list b1 = to_list b2.
Proof.
  split; [apply image_of_list; reflexivity|].
  set (f := fun w h p => binary_closing_disk p w h 1).
  exists (call1 f 5 4 (of_list morph_pic)), (call1 f 5 4 (call1 f 5 4 (of_list morph_pic))).
  split; [apply call1_calls; vm_compute; reflexivity|]. split; [apply call1_calls; vm_compute; reflexivity|].
  vm_compute; reflexivity.
Qed.

(** ** C53: large radii.  dx*dx + dy*dy overflows int as soon as the radius
    reaches 32768, even on a picture of one pixel. *)
Theorem C53_every_radius_refuted : exists s p b,
  wf s /\ holds s p b /\ image (1 * 1) b /\
  binary_dilation_disk p 1 1 32768 s = UB SignedOverflow /\
  binary_erosion_disk p 1 1 32768 s = UB SignedOverflow.
Proof.
  exists (st1 [255]), (Ptr 0), (of_list [255]). split; [apply wf_st1|]. split; [apply holds_st1|].
  split; [apply image_of_list; reflexivity|]. split; vm_compute; reflexivity.
Qed.
Print Assumptions C53_every_radius_refuted.
