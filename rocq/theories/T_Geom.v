(** * Theorems C01-C05: orientation functions *)
From Verif Require Import Base F Heap Spec M_Geom P_Geom ExUtil ExGeom.

(** ** C01: flip_x *)
Theorem C01_flip_x : forall w h s p b,
  wf s -> dims_ok w h -> holds s p b -> image (w * h * 4) b ->
  returns_fresh s (flip_x w h p s) (fun b' =>
    exact_image (w * h * 4) b' /\
    forall x y c, 0 <= x < w -> 0 <= y < h -> 0 <= c < 4 ->
      pix b' w 4 x y c = pix b w 4 (w - 1 - x) y c).
Proof. exact flip_x_main. Qed.
Print Assumptions C01_flip_x.

Theorem C01_flip_x_rejects : forall w h s p,
  wf s -> is_u32 w -> is_u32 h ->
  p = Null \/ w = 0 \/ h = 0 \/ w * h * 4 > SIZE_MAX ->
  returns_null s (flip_x w h p s).
Proof. exact flip_x_rejects. Qed.
Print Assumptions C01_flip_x_rejects.

Example C01_flip_x_ex :
  (wf (st1 pic32) /\ dims_ok 3 2 /\ holds (st1 pic32) (Ptr 0) (of_list pic32) /\
   image (3 * 2 * 4) (of_list pic32)) /\
  out_bytes (flip_x 3 2 (Ptr 0) (st1 pic32)) =
    Some (map Some [100; 110; 120; 128; 10; 20; 30; 255; 1; 2; 3; 255; 200; 210; 220; 1; 40; 50; 60; 255; 7; 8; 9; 0]) /\
  out_bytes (flip_x 3 2 (Ptr 0) (st1_oom pic32)) = None /\
  out_bytes (flip_x 4294967295 4294967295 (Ptr 0) (st1 pic32)) = None.
Proof. split; [exact pic32_hyps|]. repeat split; vm_compute; reflexivity. Qed.

(** ** C02: flip_y *)
Theorem C02_flip_y : forall w h s p b,
  wf s -> dims_ok w h -> holds s p b -> image (w * h * 4) b ->
  returns_fresh s (flip_y w h p s) (fun b' =>
    exact_image (w * h * 4) b' /\
    forall x y c, 0 <= x < w -> 0 <= y < h -> 0 <= c < 4 ->
      pix b' w 4 x y c = pix b w 4 x (h - 1 - y) c).
Proof. exact flip_y_main. Qed.
Print Assumptions C02_flip_y.

Theorem C02_flip_y_rejects : forall w h s p,
  wf s -> is_u32 w -> is_u32 h ->
  p = Null \/ w = 0 \/ h = 0 \/ w * h * 4 > SIZE_MAX ->
  returns_null s (flip_y w h p s).
Proof. exact flip_y_rejects. Qed.
Print Assumptions C02_flip_y_rejects.

Example C02_flip_y_ex :
  (wf (st1 pic32) /\ dims_ok 3 2 /\ holds (st1 pic32) (Ptr 0) (of_list pic32) /\
   image (3 * 2 * 4) (of_list pic32)) /\
  out_bytes (flip_y 3 2 (Ptr 0) (st1 pic32)) =
    Some (map Some [7; 8; 9; 0; 40; 50; 60; 255; 200; 210; 220; 1; 1; 2; 3; 255; 10; 20; 30; 255; 100; 110; 120; 128]) /\
  out_bytes (flip_y 3 2 (Ptr 0) (st1_oom pic32)) = None /\
  out_bytes (flip_y 4294967295 4294967295 (Ptr 0) (st1 pic32)) = None.
Proof. split; [exact pic32_hyps|]. repeat split; vm_compute; reflexivity. Qed.

(** ** C03: transpose *)
Theorem C03_transpose : forall w h s p b,
  wf s -> dims_ok w h -> holds s p b -> image (w * h * 4) b ->
  returns_fresh s (transpose w h p s) (fun b' =>
    exact_image (h * w * 4) b' /\
    forall x y c, 0 <= x < h -> 0 <= y < w -> 0 <= c < 4 ->
      pix b' h 4 x y c = pix b w 4 y x c).
Proof. exact transpose_main. Qed.
Print Assumptions C03_transpose.

Theorem C03_transpose_rejects : forall w h s p,
  wf s -> is_u32 w -> is_u32 h ->
  p = Null \/ w = 0 \/ h = 0 \/ w * h * 4 > SIZE_MAX ->
  returns_null s (transpose w h p s).
Proof. exact transpose_rejects. Qed.
Print Assumptions C03_transpose_rejects.

Example C03_transpose_ex :
  (wf (st1 pic32) /\ dims_ok 3 2 /\ holds (st1 pic32) (Ptr 0) (of_list pic32) /\
   image (3 * 2 * 4) (of_list pic32)) /\
  out_bytes (transpose 3 2 (Ptr 0) (st1 pic32)) =
    Some (map Some [1; 2; 3; 255; 7; 8; 9; 0; 10; 20; 30; 255; 40; 50; 60; 255; 100; 110; 120; 128; 200; 210; 220; 1]) /\
  out_bytes (transpose 3 2 (Ptr 0) (st1_oom pic32)) = None /\
  out_bytes (transpose 4294967295 4294967295 (Ptr 0) (st1 pic32)) = None.
Proof. split; [exact pic32_hyps|]. repeat split; vm_compute; reflexivity. Qed.

(** ** C03: transverse *)
Theorem C03_transverse : forall w h s p b,
  wf s -> dims_ok w h -> holds s p b -> image (w * h * 4) b ->
  returns_fresh s (transverse w h p s) (fun b' =>
    exact_image (h * w * 4) b' /\
    forall x y c, 0 <= x < h -> 0 <= y < w -> 0 <= c < 4 ->
      pix b' h 4 x y c = pix b w 4 (w - 1 - y) (h - 1 - x) c).
Proof. exact transverse_main. Qed.
Print Assumptions C03_transverse.

Theorem C03_transverse_rejects : forall w h s p,
  wf s -> is_u32 w -> is_u32 h ->
  p = Null \/ w = 0 \/ h = 0 \/ w * h * 4 > SIZE_MAX ->
  returns_null s (transverse w h p s).
Proof. exact transverse_rejects. Qed.
Print Assumptions C03_transverse_rejects.

Example C03_transverse_ex :
  (wf (st1 pic32) /\ dims_ok 3 2 /\ holds (st1 pic32) (Ptr 0) (of_list pic32) /\
   image (3 * 2 * 4) (of_list pic32)) /\
  out_bytes (transverse 3 2 (Ptr 0) (st1 pic32)) =
    Some (map Some [200; 210; 220; 1; 100; 110; 120; 128; 40; 50; 60; 255; 10; 20; 30; 255; 7; 8; 9; 0; 1; 2; 3; 255]) /\
  out_bytes (transverse 3 2 (Ptr 0) (st1_oom pic32)) = None /\
  out_bytes (transverse 4294967295 4294967295 (Ptr 0) (st1 pic32)) = None.
Proof. split; [exact pic32_hyps|]. repeat split; vm_compute; reflexivity. Qed.

(** ** C04: rotate_90_cw *)
Theorem C04_rotate_90 : forall w h s p b,
  wf s -> dims_ok w h -> holds s p b -> image (w * h * 4) b ->
  returns_fresh s (rotate_90_cw w h p s) (fun b' =>
    exact_image (h * w * 4) b' /\
    forall x y c, 0 <= x < h -> 0 <= y < w -> 0 <= c < 4 ->
      pix b' h 4 x y c = pix b w 4 y (h - 1 - x) c).
Proof. exact rotate_90_main. Qed.
Print Assumptions C04_rotate_90.

Theorem C04_rotate_90_rejects : forall w h s p,
  wf s -> is_u32 w -> is_u32 h ->
  p = Null \/ w = 0 \/ h = 0 \/ w * h * 4 > SIZE_MAX ->
  returns_null s (rotate_90_cw w h p s).
Proof. exact rotate_90_rejects. Qed.
Print Assumptions C04_rotate_90_rejects.

Example C04_rotate_90_ex :
  (wf (st1 pic32) /\ dims_ok 3 2 /\ holds (st1 pic32) (Ptr 0) (of_list pic32) /\
   image (3 * 2 * 4) (of_list pic32)) /\
  out_bytes (rotate_90_cw 3 2 (Ptr 0) (st1 pic32)) =
    Some (map Some [7; 8; 9; 0; 1; 2; 3; 255; 40; 50; 60; 255; 10; 20; 30; 255; 200; 210; 220; 1; 100; 110; 120; 128]) /\
  out_bytes (rotate_90_cw 3 2 (Ptr 0) (st1_oom pic32)) = None /\
  out_bytes (rotate_90_cw 4294967295 4294967295 (Ptr 0) (st1 pic32)) = None.
Proof. split; [exact pic32_hyps|]. repeat split; vm_compute; reflexivity. Qed.

(** ** C04: rotate_180 *)
Theorem C04_rotate_180 : forall w h s p b,
  wf s -> dims_ok w h -> holds s p b -> image (w * h * 4) b ->
  returns_fresh s (rotate_180 w h p s) (fun b' =>
    exact_image (w * h * 4) b' /\
    forall x y c, 0 <= x < w -> 0 <= y < h -> 0 <= c < 4 ->
      pix b' w 4 x y c = pix b w 4 (w - 1 - x) (h - 1 - y) c).
Proof. exact rotate_180_main. Qed.
Print Assumptions C04_rotate_180.

Theorem C04_rotate_180_rejects : forall w h s p,
  wf s -> is_u32 w -> is_u32 h ->
  p = Null \/ w = 0 \/ h = 0 \/ w * h * 4 > SIZE_MAX ->
  returns_null s (rotate_180 w h p s).
Proof. exact rotate_180_rejects. Qed.
Print Assumptions C04_rotate_180_rejects.

Example C04_rotate_180_ex :
  (wf (st1 pic32) /\ dims_ok 3 2 /\ holds (st1 pic32) (Ptr 0) (of_list pic32) /\
   image (3 * 2 * 4) (of_list pic32)) /\
  out_bytes (rotate_180 3 2 (Ptr 0) (st1 pic32)) =
    Some (map Some [200; 210; 220; 1; 40; 50; 60; 255; 7; 8; 9; 0; 100; 110; 120; 128; 10; 20; 30; 255; 1; 2; 3; 255]) /\
  out_bytes (rotate_180 3 2 (Ptr 0) (st1_oom pic32)) = None /\
  out_bytes (rotate_180 4294967295 4294967295 (Ptr 0) (st1 pic32)) = None.
Proof. split; [exact pic32_hyps|]. repeat split; vm_compute; reflexivity. Qed.

(** ** C04: rotate_270_cw *)
Theorem C04_rotate_270 : forall w h s p b,
  wf s -> dims_ok w h -> holds s p b -> image (w * h * 4) b ->
  returns_fresh s (rotate_270_cw w h p s) (fun b' =>
    exact_image (h * w * 4) b' /\
    forall x y c, 0 <= x < h -> 0 <= y < w -> 0 <= c < 4 ->
      pix b' h 4 x y c = pix b w 4 (w - 1 - y) x c).
Proof. exact rotate_270_main. Qed.
Print Assumptions C04_rotate_270.

Theorem C04_rotate_270_rejects : forall w h s p,
  wf s -> is_u32 w -> is_u32 h ->
  p = Null \/ w = 0 \/ h = 0 \/ w * h * 4 > SIZE_MAX ->
  returns_null s (rotate_270_cw w h p s).
Proof. exact rotate_270_rejects. Qed.
Print Assumptions C04_rotate_270_rejects.

Example C04_rotate_270_ex :
  (wf (st1 pic32) /\ dims_ok 3 2 /\ holds (st1 pic32) (Ptr 0) (of_list pic32) /\
   image (3 * 2 * 4) (of_list pic32)) /\
  out_bytes (rotate_270_cw 3 2 (Ptr 0) (st1 pic32)) =
    Some (map Some [100; 110; 120; 128; 200; 210; 220; 1; 10; 20; 30; 255; 40; 50; 60; 255; 1; 2; 3; 255; 7; 8; 9; 0]) /\
  out_bytes (rotate_270_cw 3 2 (Ptr 0) (st1_oom pic32)) = None /\
  out_bytes (rotate_270_cw 4294967295 4294967295 (Ptr 0) (st1 pic32)) = None.
Proof. split; [exact pic32_hyps|]. repeat split; vm_compute; reflexivity. Qed.

(** ** C05: the laws of the symmetry group.  [calls f w h b b'] ranges over every
    heap and history in which the call succeeded. *)

Theorem C05_flip_x_twice : forall w h b b1 b2,
  dims_ok w h -> image (w * h * 4) b ->
  calls flip_x w h b b1 -> calls flip_x w h b1 b2 ->
  same_bytes (w * h * 4) b b2.
Proof. exact flip_x_twice. Qed.
Print Assumptions C05_flip_x_twice.

Theorem C05_flip_y_twice : forall w h b b1 b2,
  dims_ok w h -> image (w * h * 4) b ->
  calls flip_y w h b b1 -> calls flip_y w h b1 b2 ->
  same_bytes (w * h * 4) b b2.
Proof. exact flip_y_twice. Qed.
Print Assumptions C05_flip_y_twice.

Theorem C05_rotate_180_twice : forall w h b b1 b2,
  dims_ok w h -> image (w * h * 4) b ->
  calls rotate_180 w h b b1 -> calls rotate_180 w h b1 b2 ->
  same_bytes (w * h * 4) b b2.
Proof. exact rotate_180_twice. Qed.
Print Assumptions C05_rotate_180_twice.

Theorem C05_transpose_twice : forall w h b b1 b2,
  dims_ok w h -> image (w * h * 4) b ->
  calls transpose w h b b1 -> calls transpose h w b1 b2 ->
  same_bytes (w * h * 4) b b2.
Proof. exact transpose_twice. Qed.
Print Assumptions C05_transpose_twice.

Theorem C05_transverse_twice : forall w h b b1 b2,
  dims_ok w h -> image (w * h * 4) b ->
  calls transverse w h b b1 -> calls transverse h w b1 b2 ->
  same_bytes (w * h * 4) b b2.
Proof. exact transverse_twice. Qed.
Print Assumptions C05_transverse_twice.

Theorem C05_rotate_90_then_270 : forall w h b b1 b2,
  dims_ok w h -> image (w * h * 4) b ->
  calls rotate_90_cw w h b b1 -> calls rotate_270_cw h w b1 b2 ->
  same_bytes (w * h * 4) b b2.
Proof. exact rotate_90_then_270. Qed.
Print Assumptions C05_rotate_90_then_270.

Theorem C05_rotate_90_four : forall w h b b1 b2 b3 b4,
  dims_ok w h -> image (w * h * 4) b ->
  calls rotate_90_cw w h b b1 -> calls rotate_90_cw h w b1 b2 ->
  calls rotate_90_cw w h b2 b3 -> calls rotate_90_cw h w b3 b4 ->
  same_bytes (w * h * 4) b b4.
Proof. exact rotate_90_four. Qed.
Print Assumptions C05_rotate_90_four.

Theorem C05_rotate_90_twice : forall w h b b1 b2 b3,
  dims_ok w h -> image (w * h * 4) b ->
  calls rotate_90_cw w h b b1 -> calls rotate_90_cw h w b1 b2 ->
  calls rotate_180 w h b b3 ->
  same_bytes (w * h * 4) b2 b3.
Proof. exact rotate_90_twice. Qed.
Print Assumptions C05_rotate_90_twice.

Theorem C05_flip_x_flip_y : forall w h b b1 b2 b3,
  dims_ok w h -> image (w * h * 4) b ->
  calls flip_x w h b b1 -> calls flip_y w h b1 b2 ->
  calls rotate_180 w h b b3 ->
  same_bytes (w * h * 4) b2 b3.
Proof. exact flip_x_flip_y. Qed.
Print Assumptions C05_flip_x_flip_y.

Theorem C05_transpose_flip_x : forall w h b b1 b2 b3,
  dims_ok w h -> image (w * h * 4) b ->
  calls transpose w h b b1 -> calls flip_x h w b1 b2 ->
  calls rotate_90_cw w h b b3 ->
  same_bytes (h * w * 4) b2 b3.
Proof. exact transpose_flip_x. Qed.
Print Assumptions C05_transpose_flip_x.

Theorem C05_transpose_flip_y : forall w h b b1 b2 b3,
  dims_ok w h -> image (w * h * 4) b ->
  calls transpose w h b b1 -> calls flip_y h w b1 b2 ->
  calls rotate_270_cw w h b b3 ->
  same_bytes (h * w * 4) b2 b3.
Proof. exact transpose_flip_y. Qed.
Print Assumptions C05_transpose_flip_y.

Theorem C05_transpose_rotate_180 : forall w h b b1 b2 b3,
  dims_ok w h -> image (w * h * 4) b ->
  calls transpose w h b b1 -> calls rotate_180 h w b1 b2 ->
  calls transverse w h b b3 ->
  same_bytes (h * w * 4) b2 b3.
Proof. exact transpose_rotate_180. Qed.
Print Assumptions C05_transpose_rotate_180.

(** Every hypothesis of the C05 laws is met by a concrete chain of calls on the
    3x2 picture: successive successful calls exist for each function. *)
Example C05_ex :
  exists b1 b2 b3 b4 b5, calls rotate_90_cw 3 2 (of_list pic32) b1 /\ calls rotate_90_cw 2 3 b1 b2 /\
    calls rotate_90_cw 3 2 b2 b3 /\ calls rotate_90_cw 2 3 b3 b4 /\ calls rotate_180 3 2 (of_list pic32) b5 /\
    to_list b4 = map Some pic32 /\ to_list b5 = to_list b2.
Proof. exact C05_chain. Qed.
Example C05_ex2 :
  exists b1 b2 b3, calls transpose 3 2 (of_list pic32) b1 /\ calls flip_x 2 3 b1 b2 /\
    calls rotate_90_cw 3 2 (of_list pic32) b3 /\ to_list b3 = to_list b2.
Proof. exact C05_chain2. Qed.
