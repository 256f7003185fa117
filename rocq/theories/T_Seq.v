(** * Theorems: sequences of turnings *)
From Verif Require Import Base F Heap Spec Spec_Rel Spec_Ops Spec_Seq M_Geom M_Color P_Seq ExUtil.
Import ListNotations.
Local Open Scope Z_scope.

(** ** C120: whatever functions are applied to turn a picture, and however often, the
    result depends only on where a sheet of paper's corners would end up. *)
Theorem C120_sequences : forall w h b os os' w1 h1 b1 w2 h2 b2, dims_ok w h -> image (w * h * 4) b ->
  sequence w h b os w1 h1 b1 -> sequence w h b os' w2 h2 b2 -> sheet_after os = sheet_after os' ->
  w1 = w2 /\ h1 = h2 /\ same_bytes (w1 * h1 * 4) b1 b2.
Proof. exact sequences_agree. Qed.
Print Assumptions C120_sequences.

Theorem C120_back : forall w h b os w1 h1 b1, dims_ok w h -> image (w * h * 4) b ->
  sequence w h b os w1 h1 b1 -> sheet_after os = unturned ->
  w1 = w /\ h1 = h /\ same_bytes (w * h * 4) b b1.
Proof. exact sequence_back. Qed.
Print Assumptions C120_back.

(** Where each pixel of the result comes from, read off the sheet. *)
Theorem C120_laid : forall w h b os w1 h1 b1, dims_ok w h -> image (w * h * 4) b ->
  sequence w h b os w1 h1 b1 -> laid (sheet_after os) w h b w1 h1 b1.
Proof. exact sequence_laid. Qed.
Print Assumptions C120_laid.

Example C120_ex : dims_ok 3 2 /\ image (3 * 2 * 4) (of_list pic32) /\
  (exists b1, sequence 3 2 (of_list pic32) [Mirror_x; Right_turn; Transversed] 3 2 b1) /\
  (exists b2, sequence 3 2 (of_list pic32) [Left_turn; Mirror_y; Left_turn; Transversed] 2 3 b2) /\
  sheet_after [Mirror_x; Right_turn; Transversed] = unturned /\
  sheet_after [Left_turn; Mirror_y; Left_turn; Transversed] = sheet_after [Left_turn].
Proof.
  split; [apply pic32_hyps|]. split; [apply pic32_hyps|]. split; [|split; [|split; reflexivity]].
  - pose (c1 := call1 flip_x 3 2 (of_list pic32)). pose (c2 := call1 rotate_90_cw 3 2 c1). pose (c3 := call1 transverse 2 3 c2). exists c3.
    apply (one_more _ _ _ [Mirror_x; Right_turn] 2 3 c2 Transversed); [|apply call1_calls; vm_compute; reflexivity].
    apply (one_more _ _ _ [Mirror_x] 3 2 c1 Right_turn); [|apply call1_calls; vm_compute; reflexivity].
    apply (one_more _ _ _ [] 3 2 (of_list pic32) Mirror_x); [|apply call1_calls; vm_compute; reflexivity]. constructor.
  - pose (c1 := call1 rotate_270_cw 3 2 (of_list pic32)). pose (c2 := call1 flip_y 2 3 c1). pose (c3 := call1 rotate_270_cw 2 3 c2).
    pose (c4 := call1 transverse 3 2 c3). exists c4.
    apply (one_more _ _ _ [Left_turn; Mirror_y; Left_turn] 3 2 c3 Transversed); [|apply call1_calls; vm_compute; reflexivity].
    apply (one_more _ _ _ [Left_turn; Mirror_y] 2 3 c2 Left_turn); [|apply call1_calls; vm_compute; reflexivity].
    apply (one_more _ _ _ [Left_turn] 2 3 c1 Mirror_y); [|apply call1_calls; vm_compute; reflexivity].
    apply (one_more _ _ _ [] 3 2 (of_list pic32) Left_turn); [|apply call1_calls; vm_compute; reflexivity]. constructor.
Qed.

(** ** C121: turnings and tone changes (grayscale, stretched grayscale, thresholds) mixed
    in any way: the result depends only on the sequence of tone changes and on where a
    sheet's corners end up. *)
Theorem C121_mixed : forall w h b es es' w1 h1 b1 w2 h2 b2, dims_ok w h -> w * h <= 1073741824 -> image (w * h * 4) b ->
  changes w h b es w1 h1 b1 -> changes w h b es' w2 h2 b2 -> tones_of es = tones_of es' -> sheet_after (turns_of es) = sheet_after (turns_of es') ->
  w1 = w2 /\ h1 = h2 /\ same_bytes (w1 * h1 * 4) b1 b2.
Proof. exact changes_agree. Qed.
Print Assumptions C121_mixed.

Example C121_ex : exists b1 b2,
  changes 3 2 (of_list pic32) [Turn Right_turn; Tone grayscale_stretch; Turn Transversed] 3 2 b1 /\
  changes 3 2 (of_list pic32) [Tone grayscale_stretch; Turn Mirror_x] 3 2 b2 /\
  sheet_after [Right_turn; Transversed] = sheet_after [Mirror_x].
Proof.
  pose (c1 := call1 rotate_90_cw 3 2 (of_list pic32)). pose (c2 := call1 grayscale_stretch 2 3 c1). pose (c3 := call1 transverse 2 3 c2).
  pose (d1 := call1 grayscale_stretch 3 2 (of_list pic32)). pose (d2 := call1 flip_x 3 2 d1). exists c3, d2. split; [|split; [|reflexivity]].
  - apply (turn_more _ _ _ [Turn Right_turn; Tone grayscale_stretch] 2 3 c2 Transversed); [|apply call1_calls; vm_compute; reflexivity].
    apply (tone_more _ _ _ [Turn Right_turn] 2 3 c1 grayscale_stretch); [|right; left; reflexivity|apply call1_calls; vm_compute; reflexivity].
    apply (turn_more _ _ _ [] 3 2 (of_list pic32) Right_turn); [|apply call1_calls; vm_compute; reflexivity]. constructor.
  - apply (turn_more _ _ _ [Tone grayscale_stretch] 3 2 d1 Mirror_x); [|apply call1_calls; vm_compute; reflexivity].
    apply (tone_more _ _ _ [] 3 2 (of_list pic32) grayscale_stretch); [|right; left; reflexivity|apply call1_calls; vm_compute; reflexivity]. constructor.
Qed.
