(** * Theorems: tiles and the conversions between one and four channels *)
From Verif Require Import Base F Heap Spec Spec_Parse M_Geom M_Color P_Tile3 ExUtil.
From Coq Require Import String.
Local Open Scope string_scope.
Local Open Scope list_scope.
Local Open Scope Z_scope.

(** ** C126, continued: these conversions treat each pixel by itself, so a tile is processed
    as the whole picture is, up to its sides. *)
Theorem C126_to_gray : forall w h x0 y0 cw ch b d d1 t t1, dims_ok w h ->
  0 <= x0 /\ 0 <= y0 /\ 0 < cw /\ 0 < ch /\ x0 + cw <= w /\ y0 + ch <= h -> image (w * h * 4) b ->
  calls (fun w h p => crop w h 4 p x0 y0 cw ch) w h b t -> calls rgba_to_grayscale cw ch t t1 ->
  calls rgba_to_grayscale w h b d -> calls (fun w h p => crop w h 1 p x0 y0 cw ch) w h d d1 -> same_bytes (cw * ch) t1 d1.
Proof. exact tile_to_gray. Qed.
Print Assumptions C126_to_gray.

Theorem C126_multichannel : forall w h x0 y0 cw ch b d d1 t t1, dims_ok w h ->
  0 <= x0 /\ 0 <= y0 /\ 0 < cw /\ 0 < ch /\ x0 + cw <= w /\ y0 + ch <= h -> image (w * h) b ->
  calls (fun w h p => crop w h 1 p x0 y0 cw ch) w h b t -> calls single_to_multichannel cw ch t t1 ->
  calls single_to_multichannel w h b d -> calls (fun w h p => crop w h 4 p x0 y0 cw ch) w h d d1 -> same_bytes (cw * ch * 4) t1 d1.
Proof. exact tile_multichannel. Qed.
Print Assumptions C126_multichannel.

Theorem C126_binary : forall w h x0 y0 cw ch b d d1 t t1, dims_ok w h ->
  0 <= x0 /\ 0 <= y0 /\ 0 < cw /\ 0 < ch /\ x0 + cw <= w /\ y0 + ch <= h -> forall fg bg,
  w <= 2147483647 -> h <= 2147483647 -> image (w * h * 4) b ->
  calls (fun w h p => crop w h 4 p x0 y0 cw ch) w h b t -> calls (fun w h p => convert_to_binary p w h (Some fg) (Some bg)) cw ch t t1 ->
  calls (fun w h p => convert_to_binary p w h (Some fg) (Some bg)) w h b d -> calls (fun w h p => crop w h 1 p x0 y0 cw ch) w h d d1 ->
  same_bytes (cw * ch) t1 d1.
Proof. exact tile_binary. Qed.
Print Assumptions C126_binary.

Example C126_convert_ex : let f := fun n w h p => crop w h n p 1 0 2 2 in let b := of_list pic32 in let t := call1 (f 4) 3 2 b in
  let bin := fun w h p => convert_to_binary p w h (Some (txt "646E78")) (Some (txt "000000")) in
  let g := call1 rgba_to_grayscale 3 2 b in let c := call1 bin 3 2 b in let t' := call1 (f 1) 3 2 g in let m := call1 single_to_multichannel 3 2 g in
  calls (f 4) 3 2 b t /\ calls rgba_to_grayscale 2 2 t (call1 rgba_to_grayscale 2 2 t) /\ calls rgba_to_grayscale 3 2 b g /\ calls (f 1) 3 2 g t' /\
  calls bin 2 2 t (call1 bin 2 2 t) /\ calls bin 3 2 b c /\ calls (f 1) 3 2 c (call1 (f 1) 3 2 c) /\
  calls single_to_multichannel 2 2 t' (call1 single_to_multichannel 2 2 t') /\ calls single_to_multichannel 3 2 g m /\ calls (f 4) 3 2 m (call1 (f 4) 3 2 m) /\
  dims_ok 3 2 /\ image (3 * 2 * 4) b /\
  to_list t' = map Some [18;108;48;208] /\ to_list (call1 (f 1) 3 2 c) = map Some [0;255;0;0].
Proof.
  cbv zeta. do 10 (split; [apply call1_calls; vm_compute; reflexivity|]). split; [apply pic32_hyps|]. split; [apply pic32_hyps|].
  split; vm_compute; reflexivity.
Qed.
