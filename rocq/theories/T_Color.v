(** * Theorems C11-C17: grayscale, single channel, hex colours, binary, stretch *)
From Verif Require Import Base F Heap Spec Spec_Color M_Color P_Color P_Color2 P_Color3 ExUtil.

(** ** C11: grayscale *)
Theorem C11_grayscale : forall w h s p b,
  wf s -> dims_ok w h -> w * h <= 1073741824 -> holds s p b -> image (w * h * 4) b ->
  returns_fresh s (grayscale w h p s) (fun b' =>
    exact_image (w * h * 4) b' /\
    forall x y, 0 <= x < w -> 0 <= y < h -> opaque_gray b' w x y (gray_at b w x y)).
Proof. exact grayscale_ok. Qed.
Print Assumptions C11_grayscale.

Theorem C11_grayscale_rejects : forall w h s p,
  wf s -> is_u32 w -> is_u32 h ->
  p = Null \/ w = 0 \/ h = 0 \/ w * h * 4 > SIZE_MAX ->
  returns_null s (grayscale w h p s).
Proof. exact grayscale_rejects. Qed.
Print Assumptions C11_grayscale_rejects.

(** The luma lies between the smallest and largest of R, G, B. *)
Theorem C11_luma_between : forall b w h x y, 0 <= x < w -> 0 <= y < h -> image (w * h * 4) b ->
  Z.min (pixv b w 4 x y 0) (Z.min (pixv b w 4 x y 1) (pixv b w 4 x y 2)) <= gray_at b w x y
  <= Z.max (pixv b w 4 x y 0) (Z.max (pixv b w 4 x y 1) (pixv b w 4 x y 2)).
Proof. exact gray_at_between. Qed.
Print Assumptions C11_luma_between.

Theorem C11_grayscale_idempotent : forall w h b b1 b2,
  dims_ok w h -> w * h <= 1073741824 -> image (w * h * 4) b ->
  calls grayscale w h b b1 -> calls grayscale w h b1 b2 -> same_bytes (w * h * 4) b1 b2.
Proof. exact grayscale_idem. Qed.
Print Assumptions C11_grayscale_idempotent.

Example C11_ex :
  (wf (st1 pic32) /\ dims_ok 3 2 /\ holds (st1 pic32) (Ptr 0) (of_list pic32) /\ image (3 * 2 * 4) (of_list pic32)) /\
  out_bytes (grayscale 3 2 (Ptr 0) (st1 pic32)) =
    Some (map Some [1;1;1;255; 18;18;18;255; 108;108;108;255; 7;7;7;255; 48;48;48;255; 208;208;208;255]) /\
  calls grayscale 3 2 (of_list pic32) (call1 grayscale 3 2 (of_list pic32)) /\
  out_bytes (grayscale 3 2 (Ptr 0) (st1_oom pic32)) = None.
Proof.
  split; [exact pic32_hyps|]. split; [vm_compute; reflexivity|].
  split; [apply call1_calls; vm_compute; reflexivity|vm_compute; reflexivity].
Qed.

(** ** C12: beyond 2^30 pixels the 32-bit index wraps.  For this image, whose
    size fits in size_t, the call succeeds but no byte of the result was ever
    written: the C11 contract does not hold for every size. *)
Theorem C12_grayscale_every_size_refuted : exists w h s p b q s' b',
  wf s /\ dims_ok w h /\ holds s p b /\ image (w * h * 4) b /\
  grayscale w h p s = Ok (Ptr q, s') /\ mem s' q = Some (OBytes b') /\
  forall x y c, pix b' w 4 x y c = None.
Proof. exact grayscale_wraps. Qed.
Print Assumptions C12_grayscale_every_size_refuted.

(** ** C13: single-channel conversions, every size *)
Theorem C13_rgba_to_grayscale : forall w h s p b,
  wf s -> dims_ok w h -> holds s p b -> image (w * h * 4) b ->
  returns_fresh s (rgba_to_grayscale w h p s) (fun b' =>
    exact_image (w * h) b' /\
    forall x y, 0 <= x < w -> 0 <= y < h -> pix b' w 1 x y 0 = Some (gray_at b w x y)).
Proof. exact rgba_to_grayscale_ok. Qed.
Print Assumptions C13_rgba_to_grayscale.

Theorem C13_rgba_to_grayscale_rejects : forall w h s p,
  wf s -> p = Null \/ w = 0 \/ h = 0 -> returns_null s (rgba_to_grayscale w h p s).
Proof. exact rgba_to_grayscale_rejects. Qed.
Print Assumptions C13_rgba_to_grayscale_rejects.

Theorem C13_single_to_multichannel : forall w h s p b,
  wf s -> dims_ok w h -> holds s p b -> image (w * h) b ->
  returns_fresh s (single_to_multichannel w h p s) (fun b' =>
    exact_image (w * h * 4) b' /\
    forall x y, 0 <= x < w -> 0 <= y < h -> opaque_gray b' w x y (pixv b w 1 x y 0)).
Proof. exact single_to_multichannel_ok. Qed.
Print Assumptions C13_single_to_multichannel.

Theorem C13_single_to_multichannel_rejects : forall w h s p,
  wf s -> is_u32 w -> is_u32 h ->
  p = Null \/ w = 0 \/ h = 0 \/ w * h * 4 > SIZE_MAX ->
  returns_null s (single_to_multichannel w h p s).
Proof. exact single_to_multichannel_rejects. Qed.
Print Assumptions C13_single_to_multichannel_rejects.

Theorem C13_round_trip : forall w h b b1 b2, dims_ok w h -> image (w * h) b ->
  calls single_to_multichannel w h b b1 -> calls rgba_to_grayscale w h b1 b2 ->
  blen b2 = w * h /\ same_bytes (w * h) b b2.
Proof. exact gray_round_trip. Qed.
Print Assumptions C13_round_trip.

Example C13_ex : dims_ok 3 1 /\ image (3 * 1) (of_list [7;200;255]) /\ exists b1 b2,
  calls single_to_multichannel 3 1 (of_list [7;200;255]) b1 /\
  calls rgba_to_grayscale 3 1 b1 b2 /\
  to_list b1 = map Some [7;7;7;255; 200;200;200;255; 255;255;255;255] /\
  to_list b2 = map Some [7;200;255].
Proof.
  split; [unfold dims_ok, is_u32, SIZE_MAX; lia|].
  split; [apply image_of_list; reflexivity|].
  exists (call1 single_to_multichannel 3 1 (of_list [7;200;255])).
  exists (call1 rgba_to_grayscale 3 1 (call1 single_to_multichannel 3 1 (of_list [7;200;255]))).
  do 2 (split; [apply call1_calls; vm_compute; reflexivity|]).
  split; vm_compute; reflexivity.
Qed.

(** ** C14: hex colours ([Ok] also says that no character past the terminator is read) *)
Theorem C14_decodes : forall c1 c2 c3 c4 c5 c6 v1 v2 v3 v4 v5 v6,
  hex_digit c1 = Some v1 -> hex_digit c2 = Some v2 -> hex_digit c3 = Some v3 ->
  hex_digit c4 = Some v4 -> hex_digit c5 = Some v5 -> hex_digit c6 = Some v6 ->
  parse_hex_color [c1; c2; c3; c4; c5; c6] = Ok (16 * v1 + v2, 16 * v3 + v4, 16 * v5 + v6) /\
  parse_hex_color [35; c1; c2; c3; c4; c5; c6] = Ok (16 * v1 + v2, 16 * v3 + v4, 16 * v5 + v6).
Proof. exact parse_hex_decodes. Qed.
Print Assumptions C14_decodes.

Theorem C14_everything_else_is_white : forall s,
  ~ six_hex s -> ~ (exists t, s = 35 :: t /\ six_hex t) -> parse_hex_color s = Ok (255, 255, 255).
Proof. exact parse_hex_else. Qed.
Print Assumptions C14_everything_else_is_white.

(** "#Ff8000" and "1234567", "##FFFFFF". *)
Example C14_ex :
  hex_digit 70 = Some 15 /\ hex_digit 102 = Some 15 /\ hex_digit 56 = Some 8 /\ hex_digit 48 = Some 0 /\
  parse_hex_color [35; 70; 102; 56; 48; 48; 48] = Ok (255, 128, 0) /\
  ~ six_hex [49; 50; 51; 52; 53; 54; 55] /\
  parse_hex_color [49; 50; 51; 52; 53; 54; 55] = Ok (255, 255, 255) /\
  parse_hex_color [35; 35; 48; 48; 48; 48; 48; 48] = Ok (255, 255, 255).
Proof. repeat (split; [try reflexivity; try (intros [H _]; discriminate H)|]). reflexivity. Qed.

(** ** C15: convert_to_binary *)
Theorem C15_convert_to_binary : forall w h s p b fg bg r g bl,
  wf s -> 0 < w <= 2147483647 -> 0 < h <= 2147483647 -> holds s p b -> image (w * h * 4) b ->
  parse_hex_color fg = Ok (r, g, bl) ->
  returns_fresh s (convert_to_binary p w h (Some fg) (Some bg) s) (fun b' =>
    exact_image (w * h) b' /\
    forall x y, 0 <= x < w -> 0 <= y < h ->
      (pix b' w 1 x y 0 = Some 255 <->
        pix b w 4 x y 0 = Some r /\ pix b w 4 x y 1 = Some g /\ pix b w 4 x y 2 = Some bl) /\
      (pix b' w 1 x y 0 = Some 0 \/ pix b' w 1 x y 0 = Some 255)).
Proof. exact convert_to_binary_ok. Qed.
Print Assumptions C15_convert_to_binary.

Theorem C15_convert_to_binary_rejects : forall w h s p fg bg,
  wf s -> is_i32 w -> is_i32 h ->
  p = Null \/ w <= 0 \/ h <= 0 \/ fg = None \/ bg = None ->
  returns_null s (convert_to_binary p w h fg bg s).
Proof. exact convert_to_binary_rejects. Qed.
Print Assumptions C15_convert_to_binary_rejects.

(** Foreground 010203. *)
Example C15_ex :
  (wf (st1 pic32) /\ dims_ok 3 2 /\ holds (st1 pic32) (Ptr 0) (of_list pic32) /\ image (3 * 2 * 4) (of_list pic32)) /\
  parse_hex_color [48;49;48;50;48;51] = Ok (1, 2, 3) /\
  out_bytes (convert_to_binary (Ptr 0) 3 2 (Some [48;49;48;50;48;51]) (Some []) (st1 pic32)) =
    Some (map Some [255;0;0;0;0;0]).
Proof. split; [exact pic32_hyps|]. split; vm_compute; reflexivity. Qed.

(** ** C16: grayscale_stretch.  [lo] and [hi] are the 1/64 percentiles. *)
Theorem C16_grayscale_stretch : forall w h s p b,
  wf s -> dims_ok w h -> w * h <= 1073741824 -> holds s p b -> image (w * h * 4) b ->
  returns_fresh s (grayscale_stretch w h p s) (fun b' =>
    exact_image (w * h * 4) b' /\
    exists lo hi, 0 <= lo <= hi /\ hi <= 255 /\
      (w * h / 64 < count_px w h (fun x y => gray_at b w x y <=? lo) /\
       count_px w h (fun x y => gray_at b w x y <? lo) <= w * h / 64) /\
      (w * h / 64 < count_px w h (fun x y => hi <=? gray_at b w x y) /\
       count_px w h (fun x y => hi <? gray_at b w x y) <= w * h / 64) /\
      forall x y, 0 <= x < w -> 0 <= y < h ->
        opaque_gray b' w x y (stretch_map lo hi (gray_at b w x y))).
Proof. exact grayscale_stretch_ok. Qed.
Print Assumptions C16_grayscale_stretch.

(** Darker never becomes brighter than lighter; equal levels stay equal. *)
Theorem C16_stretch_monotone : forall w h b b' x y x' y' g g',
  dims_ok w h -> w * h <= 1073741824 -> image (w * h * 4) b ->
  calls grayscale_stretch w h b b' ->
  0 <= x < w -> 0 <= y < h -> 0 <= x' < w -> 0 <= y' < h ->
  gray_at b w x y <= gray_at b w x' y' ->
  pix b' w 4 x y 0 = Some g -> pix b' w 4 x' y' 0 = Some g' -> g <= g'.
Proof. exact stretch_monotone. Qed.
Print Assumptions C16_stretch_monotone.

Theorem C16_stretch_rejects : forall w h s p,
  wf s -> is_u32 w -> is_u32 h ->
  p = Null \/ w = 0 \/ h = 0 \/ w * h * 4 > SIZE_MAX ->
  returns_null s (grayscale_stretch w h p s).
Proof. exact stretch_rejects. Qed.
Print Assumptions C16_stretch_rejects.

Example C16_ex :
  (wf (st1 pic32) /\ dims_ok 3 2 /\ holds (st1 pic32) (Ptr 0) (of_list pic32) /\ image (3 * 2 * 4) (of_list pic32)) /\
  out_bytes (grayscale_stretch 3 2 (Ptr 0) (st1 pic32)) =
    Some (map Some [0;0;0;255; 20;20;20;255; 131;131;131;255; 7;7;7;255; 57;57;57;255; 255;255;255;255]) /\
  calls grayscale_stretch 3 2 (of_list pic32) (call1 grayscale_stretch 3 2 (of_list pic32)).
Proof.
  split; [exact pic32_hyps|]. split; [vm_compute; reflexivity|].
  apply call1_calls; vm_compute; reflexivity.
Qed.

(** ** C17: a 65536 x 65536 image makes the 32-bit loop counter run forever *)
Theorem C17_stretch_terminates_refuted : exists w h s p b,
  wf s /\ dims_ok w h /\ holds s p b /\ image (w * h * 4) b /\
  grayscale_stretch w h p s = Hang.
Proof. exact stretch_hangs. Qed.
Print Assumptions C17_stretch_terminates_refuted.
