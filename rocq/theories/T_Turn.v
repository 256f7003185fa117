(** * Theorems: turning and cutting *)
From Verif Require Import Base F Heap Spec Spec_Trim Spec_Rel Spec_Ops Spec_Turn M_Geom M_Trim P_Turn P_Turn2 ExUtil T_Rel.
From Verif Require Import Spec_Morph.
Local Open Scope list_scope.
Local Open Scope Z_scope.

(** ** C124: cutting a rectangle out of a turned picture is the same as turning what is
    cut out of the picture. *)
Theorem C124_turn_crop : forall o w h b b1 x y cw ch c1 d d1, dims_ok w h -> image (w * h * 4) b ->
  0 <= x -> 0 <= y -> 0 < cw -> 0 < ch -> x + cw <= w -> y + ch <= h ->
  calls (turn o) w h b b1 ->
  calls (fun w' h' p => crop w' h' 4 p (turned_left o w h x y cw ch) (turned_top o w h x y cw ch) (tw o cw ch) (th o cw ch)) (tw o w h) (th o w h) b1 c1 ->
  calls (fun w h p => crop w h 4 p x y cw ch) w h b d -> calls (turn o) cw ch d d1 ->
  same_bytes (cw * ch * 4) c1 d1.
Proof. exact turn_crop. Qed.
Print Assumptions C124_turn_crop.

Example C124_ex : let b := of_list pic32 in let f := fun w h p => crop w h 4 p 1 0 2 1 in let g := fun w h p => crop w h 4 p 1 1 1 2 in
  let b1 := call1 (turn Right_turn) 3 2 b in
  turned_left Right_turn 3 2 1 0 2 1 = 1 /\ turned_top Right_turn 3 2 1 0 2 1 = 1 /\
  calls (turn Right_turn) 3 2 b b1 /\ calls g 2 3 b1 (call1 g 2 3 b1) /\ calls f 3 2 b (call1 f 3 2 b) /\
  calls (turn Right_turn) 2 1 (call1 f 3 2 b) (call1 (turn Right_turn) 2 1 (call1 f 3 2 b)) /\
  to_list (call1 g 2 3 b1) = map Some [10;20;30;255; 100;110;120;128].
Proof.
  split; [reflexivity|]. split; [reflexivity|]. repeat (split; [apply call1_calls; vm_compute; reflexivity|]). vm_compute. reflexivity.
Qed.

(** ** C125: trimming a mirrored picture is the same as mirroring the trimmed one, if some
    row of the trimmed picture is not of one colour. *)
Theorem C125_mirror_partial : forall o w h b b1 w1 h1 c1 w2 h2 d d1, In o [Mirror_x; Mirror_y; Half_turn] ->
  0 < w <= 2147483647 -> 0 < h <= 2147483647 -> w * h * 4 <= 4294967296 -> image (w * h * 4) b ->
  calls (turn o) w h b b1 -> calls_sized (fun w h p => trim w h 4 p) w h b1 w1 h1 c1 ->
  calls_sized (fun w h p => trim w h 4 p) w h b w2 h2 d -> calls (turn o) w2 h2 d d1 ->
  (exists x x' y c, inside w2 h2 x y /\ inside w2 h2 x' y /\ 0 <= c < 4 /\ pix d w2 4 x y c <> pix d w2 4 x' y c) ->
  w1 = w2 /\ h1 = h2 /\ same_bytes (w2 * h2 * 4) c1 d1.
Proof. exact mirror_trim. Qed.
Print Assumptions C125_mirror_partial.

Definition grays (l : list Z) : list Z := flat_map (fun v => [v; v; v; 255]) l.
Definition trims : Z -> Z -> ptr -> M (ptr * Z * Z) := fun w h p => trim w h 4 p.
Definition trim_buf (w h : Z) (b : buf Z) : buf Z := sized_buf (trims w h (Ptr 0) (stb b)).
(** A frame of gray 9 around
<<
  9 5
  5 9
>> *)
Definition framed : list Z := grays [9;9;9;9; 9;9;5;9; 9;5;9;9; 9;9;9;9].
Example C125_ex : let b := of_list framed in let b1 := call1 (turn Mirror_x) 4 4 b in let d := trim_buf 4 4 b in
  image (4 * 4 * 4) b /\ calls (turn Mirror_x) 4 4 b b1 /\ calls_sized trims 4 4 b1 2 2 (trim_buf 4 4 b1) /\
  calls_sized trims 4 4 b 2 2 d /\ calls (turn Mirror_x) 2 2 d (call1 (turn Mirror_x) 2 2 d) /\ pix d 2 4 0 0 0 <> pix d 2 4 1 0 0.
Proof.
  split; [apply image_of_list; reflexivity|]. split; [apply call1_calls; vm_compute; reflexivity|]. split; [apply sized_calls; vm_compute; reflexivity|].
  split; [apply sized_calls; vm_compute; reflexivity|]. split; [apply call1_calls; vm_compute; reflexivity|]. vm_compute. discriminate.
Qed.

(** For quarter turns and transposing: if trimming either result again changes nothing, and at
    least two columns are left. *)
Theorem C125_quarter_partial : forall o w h b b1 w1 h1 c1 w2 h2 d d1 c2 d2, In o [Transposed; Transversed; Right_turn; Left_turn] ->
  0 < w <= 2147483647 -> 0 < h <= 2147483647 -> w * h * 4 <= 4294967296 -> image (w * h * 4) b ->
  calls (turn o) w h b b1 -> calls_sized (fun w h p => trim w h 4 p) h w b1 w1 h1 c1 ->
  calls_sized (fun w h p => trim w h 4 p) w h b w2 h2 d -> calls (turn o) w2 h2 d d1 ->
  calls_sized (fun w h p => trim w h 4 p) w1 h1 c1 w1 h1 c2 -> calls_sized (fun w h p => trim w h 4 p) w2 h2 d w2 h2 d2 -> 1 < w2 ->
  w1 = h2 /\ h1 = w2 /\ same_bytes (w2 * h2 * 4) c1 d1.
Proof. exact quarter_trim. Qed.
Print Assumptions C125_quarter_partial.

(** A frame of gray 9, uneven on the four sides, around
<<
  9 5 7
  5 9 5
>> *)
Definition uneven : list Z := grays [9;9;9;9;9; 9;9;5;7;9; 9;5;9;5;9; 9;9;9;9;9; 9;9;9;9;9].
Example C125_quarter_ex : let b := of_list uneven in let b1 := call1 (turn Right_turn) 5 5 b in let d := trim_buf 5 5 b in let c := trim_buf 5 5 b1 in
  image (5 * 5 * 4) b /\ calls (turn Right_turn) 5 5 b b1 /\ calls_sized trims 5 5 b1 2 3 c /\
  calls_sized trims 5 5 b 3 2 d /\ calls (turn Right_turn) 3 2 d (call1 (turn Right_turn) 3 2 d) /\
  calls_sized trims 2 3 c 2 3 (trim_buf 2 3 c) /\ calls_sized trims 3 2 d 3 2 (trim_buf 3 2 d).
Proof.
  split; [apply image_of_list; reflexivity|]. split; [apply call1_calls; vm_compute; reflexivity|]. split; [apply sized_calls; vm_compute; reflexivity|].
  split; [apply sized_calls; vm_compute; reflexivity|]. split; [apply call1_calls; vm_compute; reflexivity|].
  split; apply sized_calls; vm_compute; reflexivity.
Qed.

(** Refuted for a quarter turn: columns are trimmed before rows.  The white line of
<<
  255 255 255
   0  255  0
>>
    is cut off; after a quarter turn only one pixel is left. *)
Definition lines : list Z := grays [255; 255; 255; 0; 255; 0].
Theorem C125_quarter_refuted : exists b b1 c1 d, image (3 * 2 * 4) b /\
  calls (turn Right_turn) 3 2 b b1 /\ calls_sized trims 2 3 b1 1 1 c1 /\ calls_sized trims 3 2 b 3 1 d.
Proof.
  exists (of_list lines), (call1 (turn Right_turn) 3 2 (of_list lines)), (trim_buf 2 3 (call1 (turn Right_turn) 3 2 (of_list lines))), (trim_buf 3 2 (of_list lines)).
  split; [apply image_of_list; reflexivity|]. split; [apply call1_calls; vm_compute; reflexivity|].
  split; apply sized_calls; vm_compute; reflexivity.
Qed.
Print Assumptions C125_quarter_refuted.

(** Refuted for mirrored pictures whose columns are each of one colour: the right column is
    kept. *)
Theorem C125_mirror_refuted : exists b b1 c1 d d1, image (2 * 2 * 4) b /\
  calls (turn Mirror_x) 2 2 b b1 /\ calls_sized trims 2 2 b1 1 1 c1 /\ calls_sized trims 2 2 b 1 1 d /\ calls (turn Mirror_x) 1 1 d d1 /\
  ~ same_bytes (1 * 1 * 4) c1 d1.
Proof.
  pose (b := of_list (grays [0; 255; 0; 255])). pose (b1 := call1 (turn Mirror_x) 2 2 b).
  exists b, b1, (trim_buf 2 2 b1), (trim_buf 2 2 b), (call1 (turn Mirror_x) 1 1 (trim_buf 2 2 b)).
  split; [apply image_of_list; reflexivity|]. split; [apply call1_calls; vm_compute; reflexivity|].
  split; [apply sized_calls; vm_compute; reflexivity|]. split; [apply sized_calls; vm_compute; reflexivity|].
  split; [apply call1_calls; vm_compute; reflexivity|]. intros H. specialize (H 0 ltac:(lia)). vm_compute in H. discriminate H.
Qed.
Print Assumptions C125_mirror_refuted.
