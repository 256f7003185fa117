(** * T_Sobel: theorems about fcv_sobel_edge_detection *)
From Verif Require Import Base F Heap Spec ExUtil Spec_Sobel M_Sobel P_Sobel.
Local Open Scope Z_scope.

(** ** C45: the result shows the normalised strength of the edges of the picture. *)
Theorem C45_sobel_gray : forall w h s p b,
  0 < w < 2147483648 -> 0 < h < 2147483648 -> w * h * 8 <= SIZE_MAX ->
  wf s -> holds s p b -> image (w * h) b ->
  returns_fresh s (sobel_edge_detection w h 1 p s) (edges_of w h (fun x y => pixv b w 1 x y 0)).
Proof. exact sobel_gray_image. Qed.
Print Assumptions C45_sobel_gray.

Theorem C45_sobel_rgba : forall w h c s p b,
  0 < w < 2147483648 -> 0 < h < 2147483648 -> w * h * 8 <= SIZE_MAX -> 1 < c ->
  wf s -> holds s p b -> image (w * h * 4) b ->
  returns_fresh s (sobel_edge_detection w h c p s) (edges_of w h (fun x y => gray_at b w x y)).
Proof. exact sobel_rgba_image. Qed.
Print Assumptions C45_sobel_rgba.

Theorem C45_rejects : forall w h c p s, wf s -> p = Null \/ w = 0 \/ h = 0 \/ c = 0 ->
  sobel_edge_detection w h c p s = Ok (Null, s).
Proof. exact sobel_rejects. Qed.
Print Assumptions C45_rejects.

(** A 4x3 gray picture with a corner, the 3x2 RGBA picture, and a constant one. *)
Example C45_ex :
  (wf (st1 [0;0;9;9; 0;0;9;9; 7;7;7;7]) /\ holds (st1 [0;0;9;9; 0;0;9;9; 7;7;7;7]) (Ptr 0) (of_list [0;0;9;9; 0;0;9;9; 7;7;7;7])
   /\ image (4 * 3) (of_list [0;0;9;9; 0;0;9;9; 7;7;7;7])) /\
  out_bytes (sobel_edge_detection 4 3 1 (Ptr 0) (st1 [0;0;9;9; 0;0;9;9; 7;7;7;7])) =
    Some (map Some [0; 255; 255; 0; 198; 233; 191; 56; 198; 148; 64; 56]) /\
  (wf (st1 pic32) /\ dims_ok 3 2 /\ holds (st1 pic32) (Ptr 0) (of_list pic32) /\ image (3 * 2 * 4) (of_list pic32)) /\
  out_bytes (sobel_edge_detection 3 2 4 (Ptr 0) (st1 pic32)) = Some (map Some [0; 181; 178; 18; 255; 226]) /\
  out_bytes (sobel_edge_detection 2 2 1 (Ptr 0) (st1 [5;5;5;5])) = Some (map Some [0;0;0;0]).
Proof.
  split; [split; [apply wf_st1|split; [apply holds_st1|apply image_of_list; reflexivity]]|].
  split; [vm_compute; reflexivity|].
  split; [exact pic32_hyps|]. split; vm_compute; reflexivity.
Qed.

(** ** C68: refuted: pictures with three bytes per pixel (documented as
    supported) are read past their end, whatever their size from two pixels up. *)
Theorem C68_rgb_refuted : forall w h s p b,
  0 < w < 2147483648 -> 0 < h < 2147483648 -> 2 <= w * h -> w * h * 8 <= SIZE_MAX ->
  wf s -> holds s p b -> exact_image (w * h * 3) b -> orc s (tick s) = true ->
  sobel_edge_detection w h 3 p s = UB OutOfBounds.
Proof. exact sobel_rgb. Qed.
Print Assumptions C68_rgb_refuted.

Example C68_ex : wf (st1 [1;2;3; 4;5;6]) /\ holds (st1 [1;2;3; 4;5;6]) (Ptr 0) (of_list [1;2;3; 4;5;6]) /\
  exact_image (2 * 1 * 3) (of_list [1;2;3; 4;5;6]) /\ orc (st1 [1;2;3; 4;5;6]) (tick (st1 [1;2;3; 4;5;6])) = true /\
  sobel_edge_detection 2 1 3 (Ptr 0) (st1 [1;2;3; 4;5;6]) = UB OutOfBounds.
Proof.
  split; [apply wf_st1|]. split; [apply holds_st1|]. split; [split; [reflexivity|apply image_of_list; reflexivity]|].
  split; reflexivity.
Qed.
