(** * Theorems C06-C07: crop *)
From Verif Require Import Base F Heap Spec M_Geom P_Geom P_Crop ExUtil.

(** ** C06: exact sub-rectangle *)
Theorem C06_crop : forall w h ch p x y cw chh s b,
  wf s -> is_u32 w -> is_u32 h -> is_u32 ch -> 0 < ch -> w * h * ch <= SIZE_MAX ->
  holds s p b -> image (w * h * ch) b ->
  0 <= x -> 0 <= y -> 0 < cw -> 0 < chh -> x + cw <= w -> y + chh <= h ->
  returns_fresh s (crop w h ch p x y cw chh s) (fun b' =>
    exact_image (cw * chh * ch) b' /\
    forall px py c, 0 <= px < cw -> 0 <= py < chh -> 0 <= c < ch ->
      pix b' cw ch px py c = pix b w ch (x + px) (y + py) c).
Proof. exact crop_ok. Qed.
Print Assumptions C06_crop.

(** ** C06: every empty or out-of-image rectangle is rejected, also when
    [x + cw] exceeds 2^32 *)
Theorem C06_crop_rejects : forall w h ch p x y cw chh s,
  wf s -> is_u32 w -> is_u32 h -> is_u32 ch -> is_u32 x -> is_u32 y -> is_u32 cw -> is_u32 chh ->
  p = Null \/ w = 0 \/ h = 0 \/ ch = 0 \/ cw = 0 \/ chh = 0 \/ x + cw > w \/ y + chh > h ->
  returns_null s (crop w h ch p x y cw chh s).
Proof. exact crop_rejects. Qed.
Print Assumptions C06_crop_rejects.

Example C06_ex :
  (wf (st1 pic32) /\ holds (st1 pic32) (Ptr 0) (of_list pic32) /\ image (3 * 2 * 4) (of_list pic32)) /\
  out_bytes (crop 3 2 4 (Ptr 0) 1 0 2 1 (st1 pic32)) = Some (map Some [10;20;30;255; 100;110;120;128]) /\
  out_bytes (crop 3 2 4 (Ptr 0) 1 1 2 1 (st1 pic32)) = Some (map Some [40;50;60;255; 200;210;220;1]) /\
  out_bytes (crop 3 2 4 (Ptr 0) 2 0 2 1 (st1 pic32)) = None /\
  out_bytes (crop 3 2 4 (Ptr 0) 4294967295 0 2 1 (st1 pic32)) = None /\
  out_bytes (crop 3 2 4 (Ptr 0) 1 0 2 1 (st1_oom pic32)) = None.
Proof.
  split; [destruct pic32_hyps as (A & _ & B & C); auto|].
  repeat split; vm_compute; reflexivity.
Qed.

(** ** C07: crops compose; the full crop is a copy *)
Theorem C07_crop_crop : forall w h ch x y cw chh x' y' cw' chh' b b1 b2 b3,
  is_u32 w -> is_u32 h -> is_u32 ch -> is_u32 x -> is_u32 y -> is_u32 cw -> is_u32 chh ->
  is_u32 x' -> is_u32 y' -> is_u32 cw' -> is_u32 chh' ->
  w * h * ch <= SIZE_MAX -> image (w * h * ch) b ->
  calls (fun w h p => crop w h ch p x y cw chh) w h b b1 ->
  calls (fun w h p => crop w h ch p x' y' cw' chh') cw chh b1 b2 ->
  calls (fun w h p => crop w h ch p (x + x') (y + y') cw' chh') w h b b3 ->
  blen b2 = blen b3 /\ same_bytes (cw' * chh' * ch) b2 b3.
Proof. exact crop_crop. Qed.
Print Assumptions C07_crop_crop.

Theorem C07_crop_full : forall w h ch b b',
  is_u32 w -> is_u32 h -> is_u32 ch -> w * h * ch <= SIZE_MAX -> image (w * h * ch) b ->
  calls (fun w h p => crop w h ch p 0 0 w h) w h b b' ->
  same_bytes (w * h * ch) b b'.
Proof. exact crop_full. Qed.
Print Assumptions C07_crop_full.

Example C07_ex : exists b1 b2 b3,
  calls (fun w h p => crop w h 4 p 1 0 2 2) 3 2 (of_list pic32) b1 /\
  calls (fun w h p => crop w h 4 p 1 1 1 1) 2 2 b1 b2 /\
  calls (fun w h p => crop w h 4 p (1 + 1) (0 + 1) 1 1) 3 2 (of_list pic32) b3 /\
  to_list b2 = map Some [200;210;220;1].
Proof.
  exists (call1 (fun w h p => crop w h 4 p 1 0 2 2) 3 2 (of_list pic32)).
  exists (call1 (fun w h p => crop w h 4 p 1 1 1 1) 2 2
           (call1 (fun w h p => crop w h 4 p 1 0 2 2) 3 2 (of_list pic32))).
  exists (call1 (fun w h p => crop w h 4 p (1 + 1) (0 + 1) 1 1) 3 2 (of_list pic32)).
  do 3 (split; [apply call1_calls; vm_compute; reflexivity|]).
  vm_compute; reflexivity.
Qed.
