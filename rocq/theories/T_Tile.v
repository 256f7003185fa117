(** * Theorems: pictures processed in tiles *)
From Coq Require Import Reals Lra.
From Flocq Require Import Core BinarySingleNaN.
From Verif Require Import Base F Heap Spec Spec_Blur M_Blur P_Blur P_Tile2 Spec_Morph Spec_Tile M_Geom M_Morph M_Color P_Tile ExUtil.
Local Open Scope list_scope.
Local Open Scope Z_scope.

(** ** C126: a tile is processed as the whole picture is, except near its sides. *)
Theorem C126_grayscale : forall w h x0 y0 cw ch b d d1 t t1, dims_ok w h -> w * h <= 1073741824 -> image (w * h * 4) b ->
  0 <= x0 -> 0 <= y0 -> 0 < cw -> 0 < ch -> x0 + cw <= w -> y0 + ch <= h ->
  calls (fun w h p => crop w h 4 p x0 y0 cw ch) w h b t -> calls grayscale cw ch t t1 ->
  calls grayscale w h b d -> calls (fun w h p => crop w h 4 p x0 y0 cw ch) w h d d1 -> same_bytes (cw * ch * 4) t1 d1.
Proof. exact tile_grayscale. Qed.
Print Assumptions C126_grayscale.

Theorem C126_dilation : forall w h x0 y0 cw ch r u v b d t t1, morph_ok w h r -> image (w * h) b ->
  0 <= x0 /\ 0 <= y0 /\ 0 < cw /\ 0 < ch /\ x0 + cw <= w /\ y0 + ch <= h -> inside cw ch u v ->
  calls (fun w h p => crop w h 1 p x0 y0 cw ch) w h b t ->
  calls (fun w h p => binary_dilation_disk p w h r) w h b d -> calls (fun w h p => binary_dilation_disk p w h r) cw ch t t1 ->
  knows r w h x0 y0 cw ch u v -> pix t1 cw 1 u v 0 = pix d w 1 (x0 + u) (y0 + v) 0.
Proof. exact tile_dilation. Qed.
Print Assumptions C126_dilation.

Theorem C126_erosion : forall w h x0 y0 cw ch r u v b d t t1, morph_ok w h r -> image (w * h) b ->
  0 <= x0 /\ 0 <= y0 /\ 0 < cw /\ 0 < ch /\ x0 + cw <= w /\ y0 + ch <= h -> inside cw ch u v ->
  calls (fun w h p => crop w h 1 p x0 y0 cw ch) w h b t ->
  calls (fun w h p => binary_erosion_disk p w h r) w h b d -> calls (fun w h p => binary_erosion_disk p w h r) cw ch t t1 ->
  knows r w h x0 y0 cw ch u v -> pix t1 cw 1 u v 0 = pix d w 1 (x0 + u) (y0 + v) 0.
Proof. exact tile_erosion. Qed.
Print Assumptions C126_erosion.

Theorem C126_closing : forall w h x0 y0 cw ch r u v b d t t1, morph_ok w h r -> image (w * h) b ->
  0 <= x0 /\ 0 <= y0 /\ 0 < cw /\ 0 < ch /\ x0 + cw <= w /\ y0 + ch <= h -> inside cw ch u v ->
  calls (fun w h p => crop w h 1 p x0 y0 cw ch) w h b t ->
  calls (fun w h p => binary_closing_disk p w h r) w h b d -> calls (fun w h p => binary_closing_disk p w h r) cw ch t t1 ->
  knows (2 * r) w h x0 y0 cw ch u v -> pix t1 cw 1 u v 0 = pix d w 1 (x0 + u) (y0 + v) 0.
Proof. exact tile_closing. Qed.
Print Assumptions C126_closing.

Theorem C126_opening : forall w h x0 y0 cw ch r u v b d t t1, morph_ok w h r -> image (w * h) b ->
  0 <= x0 /\ 0 <= y0 /\ 0 < cw /\ 0 < ch /\ x0 + cw <= w /\ y0 + ch <= h -> inside cw ch u v ->
  calls (fun w h p => crop w h 1 p x0 y0 cw ch) w h b t ->
  calls (fun w h p => binary_opening_disk p w h r) w h b d -> calls (fun w h p => binary_opening_disk p w h r) cw ch t t1 ->
  knows (2 * r) w h x0 y0 cw ch u v -> pix t1 cw 1 u v 0 = pix d w 1 (x0 + u) (y0 + v) 0.
Proof. exact tile_opening. Qed.
Print Assumptions C126_opening.

(** The four right columns of a 5x4 picture; gray levels of a part of a 3x2 picture *)
Definition tile_pic : list Z :=
  [ 255;255;255;0;0;
    255;0;255;0;0;
    255;255;255;0;0;
    0;0;0;0;128 ].
Example C126_ex : let b := of_list tile_pic in let t := call1 (fun w h p => crop w h 1 p 1 0 4 4) 5 4 b in
  morph_ok 5 4 1 /\ image (5 * 4) b /\ calls (fun w h p => crop w h 1 p 1 0 4 4) 5 4 b t /\ knows (2 * 1) 5 4 1 0 4 4 2 1 /\ knows 1 5 4 1 0 4 4 1 0 /\
  (forall f, In f [binary_dilation_disk; binary_erosion_disk; binary_closing_disk; binary_opening_disk] ->
     calls (fun w h p => f p w h 1) 5 4 b (call1 (fun w h p => f p w h 1) 5 4 b) /\
     calls (fun w h p => f p w h 1) 4 4 t (call1 (fun w h p => f p w h 1) 4 4 t)) /\
  pix (call1 (fun w h p => binary_dilation_disk p w h 1) 4 4 t) 4 1 2 1 0 = Some 255.
Proof.
  split; [unfold morph_ok; lia|]. split; [apply image_of_list; reflexivity|]. split; [apply call1_calls; vm_compute; reflexivity|].
  split; [unfold knows, covered; lia|]. split; [unfold knows, covered; lia|].
  split; [|vm_compute; reflexivity]. intros f Hf. destruct Hf as [<-|[<-|[<-|[<-|[]]]]]; split; apply call1_calls; vm_compute; reflexivity.
Qed.
Example C126_gray_ex : let b := of_list pic32 in let f := fun w h p => crop w h 4 p 1 0 2 2 in let t := call1 f 3 2 b in let d := call1 grayscale 3 2 b in
  calls f 3 2 b t /\ calls grayscale 2 2 t (call1 grayscale 2 2 t) /\ calls grayscale 3 2 b d /\ calls f 3 2 d (call1 f 3 2 d) /\
  to_list (call1 f 3 2 d) = map Some [18;18;18;255; 108;108;108;255; 48;48;48;255; 208;208;208;255].
Proof. repeat (split; [apply call1_calls; vm_compute; reflexivity|]). vm_compute. reflexivity. Qed.

(** Closing looks two radii far: one radius of margin is not enough. *)
Example C126_margin_ex : let b := of_list [255; 0; 0; 255; 0] in let f := fun w h p => binary_closing_disk p w h 1 in
  let t := call1 (fun w h p => crop w h 1 p 1 0 4 1) 5 1 b in knows 1 5 1 1 0 4 1 1 0 /\
  pix (call1 f 4 1 t) 4 1 1 0 0 = Some 0 /\ pix (call1 f 5 1 b) 5 1 2 0 0 = Some 255.
Proof. split; [unfold knows, covered; lia|]. split; vm_compute; reflexivity. Qed.

(** Blurring: the distance is the radius, rounded down.  The bytes are the same, not only
    close. *)
Theorem C126_blur : forall e w h radius x0 y0 cw ch u v c b d t t1, exp_ok e -> 0 < w -> 0 < h -> w * h * 4 <= 4294967296 ->
  is_finite radius = true -> (1 / 1000000000000 <= B2R radius <= 1000)%R -> image (w * h * 4) b ->
  0 <= x0 -> 0 <= y0 -> 0 < cw -> 0 < ch -> x0 + cw <= w -> y0 + ch <= h -> inside cw ch u v -> 0 <= c < 4 ->
  calls (fun w h p => crop w h 4 p x0 y0 cw ch) w h b t ->
  calls (fun w h p => apply_gaussian_blur e w h radius p) w h b d -> calls (fun w h p => apply_gaussian_blur e w h radius p) cw ch t t1 ->
  knows (Zfloor (B2R radius)) w h x0 y0 cw ch u v -> pix t1 cw 4 u v c = pix d w 4 (x0 + u) (y0 + v) c.
Proof. exact tile_blur. Qed.
Print Assumptions C126_blur.

Example C126_blur_ex : let b := of_list pic32 in let t := call1 (fun w h p => crop w h 4 p 1 0 2 2) 3 2 b in
  exp_ok exp_round /\ is_finite three_halves = true /\ (1 / 1000000000000 <= B2R three_halves <= 1000)%R /\ image (3 * 2 * 4) b /\
  calls (fun w h p => crop w h 4 p 1 0 2 2) 3 2 b t /\
  (exists d, calls (fun w h p => apply_gaussian_blur exp_round w h three_halves p) 3 2 b d) /\
  (exists d, calls (fun w h p => apply_gaussian_blur exp_round w h three_halves p) 2 2 t d) /\ knows (Zfloor (B2R three_halves)) 3 2 1 0 2 2 1 1.
Proof.
  cbv zeta. pose proof three_halves_R as [F E]. assert (R : (1 / 1000000000000 <= B2R three_halves <= 1000)%R) by (rewrite E; lra).
  split; [exact exp_round_ok|]. split; [exact F|]. split; [exact R|].
  split; [apply image_of_list; reflexivity|]. split; [apply call1_calls; vm_compute; reflexivity|].
  split; [apply blur_runs; auto; try lia; [apply exp_round_ok|apply image_of_list; reflexivity]|].
  split; [apply blur_runs; auto; try lia; [apply exp_round_ok|]|].
  - split; [vm_compute; discriminate|]. intros i Hi. assert (H : List.Forall (fun i => exists v, bget (call1 (fun w h p => crop w h 4 p 1 0 2 2) 3 2 (of_list pic32)) i = Some v /\ byte v) [0;1;2;3;4;5;6;7;8;9;10;11;12;13;14;15]).
    { repeat constructor; eexists; (split; [vm_compute; reflexivity|unfold byte; lia]). }
    rewrite List.Forall_forall in H. apply H. assert (K : i = 0 \/ i = 1 \/ i = 2 \/ i = 3 \/ i = 4 \/ i = 5 \/ i = 6 \/ i = 7 \/ i = 8 \/ i = 9 \/ i = 10 \/ i = 11 \/ i = 12 \/ i = 13 \/ i = 14 \/ i = 15) by lia.
    cbn. intuition auto.
  - rewrite E. replace (Zfloor (3 / 2)) with 1; [unfold knows, covered; lia|]. symmetry. apply Zfloor_imp. split; cbn; lra.
Qed.
