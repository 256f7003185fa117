(** * Theorems: the Haskell binding *)
From Coq Require Import Reals String List.
From Flocq Require Import Core BinarySingleNaN.
From Verif Require Import Base F Heap Spec ExUtil M_Haskell Spec_Haskell P_Haskell P_Haskell2.
From Verif Require Import M_Color M_Geom M_Otsu M_Smart M_Draw.
From Verif Require Import Spec_Blur Spec_Watershed Spec_Hist Spec_Draw Spec_Sobel Spec_Foerstner Spec_Morph.
From Verif Require Spec_Parse Spec_Trim Spec_Resize Spec_Persp M_Persp P_Watershed P_PerspEx.
Import ListNotations.
Open Scope Z_scope.

(** ** C105: the vectors the binding returns have the picture's length and contents, can
    be read to the end, and releasing them releases everything the call allocated. *)
Theorem C105_pictures : forall F f w h s v b, In (F, f) (turning ++ toning) -> wf s -> dims_ok w h -> w * h < 1073741824 ->
  holds s (v_ptr v) b -> image (w * h * 4) b ->
  hs_returns s (F w h v s) (w * h * 4) (calls f w h b).
Proof. exact picture_ok. Qed.
Print Assumptions C105_pictures.

Theorem C105_throws : forall F f w h s v, In (F, f) (turning ++ toning) -> wf s -> is_u32 w -> is_u32 h -> w = 0 \/ h = 0 ->
  hs_throws s (F w h v s).
Proof. exact picture_throws. Qed.
Print Assumptions C105_throws.

Theorem C105_gray : forall w h s v b, wf s -> dims_ok w h -> w * h < 4294967296 -> holds s (v_ptr v) b -> image (w * h * 4) b ->
  hs_returns s (hs_rgbaToGrayscale w h v s) (w * h) (fun b' =>
    forall x y, 0 <= x < w -> 0 <= y < h -> pix b' w 1 x y 0 = Some (gray_at b w x y)).
Proof. exact hs_gray. Qed.
Print Assumptions C105_gray.

Theorem C105_multichannel : forall w h s v b, wf s -> dims_ok w h -> w * h < 1073741824 -> holds s (v_ptr v) b -> image (w * h) b ->
  hs_returns s (hs_singleToMultichannel w h v s) (w * h * 4) (fun b' =>
    forall x y, 0 <= x < w -> 0 <= y < h -> opaque_gray b' w x y (pixv b w 1 x y 0)).
Proof. exact hs_multi. Qed.
Print Assumptions C105_multichannel.

Theorem C105_blur : forall e w h r s v b, exp_ok e -> 0 < w -> 0 < h -> w * h < 1073741824 ->
  is_finite r = true -> (1 / 1000000000000 <= B2R r <= 1000)%R ->
  wf s -> holds s (v_ptr v) b -> image (w * h * 4) b ->
  hs_returns s (hs_gaussianBlur e w h r v s) (w * h * 4) (blurred w h (B2R r) b).
Proof. exact hs_blur. Qed.
Print Assumptions C105_blur.

Theorem C105_smart : forall e w h dbl s v b, exp_ok e -> dims_ok w h -> w * h <= 100000000 ->
  wf s -> holds s (v_ptr v) b -> image (w * h * 4) b ->
  hs_returns s (hs_bwSmart e w h dbl v s) (w * h * 4) (calls (fun w h p => bw_smart e w h dbl p) w h b).
Proof. exact hs_smart. Qed.
Print Assumptions C105_smart.

Theorem C105_sobel_gray : forall w h s v b, 0 < w < 2147483648 -> 0 < h < 2147483648 -> w * h < 4294967296 ->
  wf s -> holds s (v_ptr v) b -> image (w * h) b ->
  hs_returns s (hs_sobelEdgeDetection w h 1 v s) (w * h) (edges_of w h (fun x y => pixv b w 1 x y 0)).
Proof. exact hs_sobel1. Qed.
Print Assumptions C105_sobel_gray.

Theorem C105_crop : forall w h ch x y cw chh s v b,
  wf s -> is_u32 w -> is_u32 h -> is_u32 ch -> 0 < ch -> w * h * ch < 4294967296 ->
  holds s (v_ptr v) b -> image (w * h * ch) b ->
  0 <= x -> 0 <= y -> 0 < cw -> 0 < chh -> x + cw <= w -> y + chh <= h ->
  hs_returns s (hs_crop w h ch x y cw chh v s) (cw * chh * ch) (fun b' =>
    forall px py c, 0 <= px < cw -> 0 <= py < chh -> 0 <= c < ch ->
      pix b' cw ch px py c = pix b w ch (x + px) (y + py) c).
Proof. exact hs_crop_ok. Qed.
Print Assumptions C105_crop.

Theorem C105_resize : forall w h rx ry s v b,
  0 < w -> 0 < h -> w * h * 4 <= 4294967296 -> Spec_Resize.factor_ok w rx -> Spec_Resize.factor_ok h ry ->
  Spec_Resize.out_size w rx * Spec_Resize.out_size h ry * 4 < 4294967296 ->
  wf s -> holds s (v_ptr v) b -> image (w * h * 4) b ->
  hs_returns_sized s (hs_resize w h rx ry v s) (fun w' h' => w' * h' * 4) (fun w' h' b' =>
    w' = Spec_Resize.out_size w rx /\ h' = Spec_Resize.out_size h ry /\ Spec_Resize.resized w h rx ry b b').
Proof. exact hs_resize_ok. Qed.
Print Assumptions C105_resize.

Theorem C105_trim : forall w h ch s v b,
  wf s -> 0 < w <= 2147483647 -> 0 < h <= 2147483647 -> 0 < ch -> w * h * ch <= 2147483647 ->
  holds s (v_ptr v) b -> image (w * h * ch) b ->
  hs_returns_sized s (hs_trim w h ch v s) (fun w' h' => w' * h' * ch) (fun w' h' b' =>
    exists l r t bt, Spec_Trim.trim_box 0 b w h ch l r t bt /\ Spec_Trim.is_box b w ch l r t bt w' h' b').
Proof. exact hs_trim_ok. Qed.
Print Assumptions C105_trim.

Theorem C105_trim_threshold : exists T : f64 -> Z,
  (forall n, 0 <= n <= 100 -> T (d_of_Z n) = n * 255 / 100) /\
  forall w h ch s v b pct,
  wf s -> 0 < w <= 2147483647 -> 0 < h <= 2147483647 -> 0 < ch -> w * h * ch <= 2147483647 ->
  holds s (v_ptr v) b -> image (w * h * ch) b -> dfinite pct = true ->
  hs_returns_sized s (hs_trimThreshold w h ch pct v s) (fun w' h' => w' * h' * ch) (fun w' h' b' =>
    exists l r t bt, Spec_Trim.trim_box (T pct) b w h ch l r t bt /\ Spec_Trim.is_box b w ch l r t bt w' h' b').
Proof. exact hs_trim_threshold_ok. Qed.
Print Assumptions C105_trim_threshold.

Theorem C105_border : forall w h ch hex bw s v b cr cg cb, wf s ->
  0 < w -> 0 < h -> (ch = 1 \/ ch = 3 \/ ch = 4) -> 0 < bw ->
  (w + 2 * bw) * (h + 2 * bw) * ch < 4294967296 ->
  holds s (v_ptr v) b -> image (w * h * ch) b -> parse_hex_color hex = Ok (cr, cg, cb) ->
  exists col, drawn_colour ch cr cg cb col /\
  hs_returns_sized s (hs_addBorder w h ch hex bw v s) (fun w' h' => w' * h' * ch) (bordered w h ch bw col b).
Proof. exact hs_border_ok. Qed.
Print Assumptions C105_border.

Theorem C105_histogram : forall w h ch s v b,
  wf s -> 0 < w -> 0 < h -> 0 < ch -> w * h * ch <= SIZE_MAX -> holds s (v_ptr v) b -> image (w * h * ch) b ->
  (forall c v, 0 <= c < counted ch -> 0 <= v < 256 -> level_count b (w * h) ch c v <= 21474836) ->
  hs_returns_sized s (hs_generateHistogram w h ch v s) (fun w' h' => w' * h' * 4) (fun w' h' b' => w' = 256 /\ h' = 200 /\
    exists bars, bar_chart bars b' /\ hist_bars b (w * h) ch bars).
Proof. exact hs_histogram_ok. Qed.
Print Assumptions C105_histogram.

Theorem C105_matrix : forall iw ih ow oh m s v b,
  0 < iw -> 0 < ih -> iw * ih * 4 <= 2147483647 -> 0 < ow <= 32768 -> 0 < oh <= 32768 -> ow * oh * 4 <= 2147483647 ->
  wf s -> holds s (v_ptr v) b -> image (iw * ih * 4) b -> Spec_Persp.tame m ow oh -> ~ Spec_Persp.half_turn m ->
  hs_returns s (hs_applyMatrix3x3 iw ih ow oh m v s) (ow * oh * 4) (fun b' =>
    forall x y, 0 <= x < ow -> 0 <= y < oh -> exists X Y,
      (Rabs (X - Spec_Persp.map_x m x y) <= (1 + Rabs (Spec_Persp.map_x m x y)) / 10000)%R /\
      (Rabs (Y - Spec_Persp.map_y m x y) <= (1 + Rabs (Spec_Persp.map_y m x y)) / 10000)%R /\
      Spec_Persp.shows b iw ih X Y b' ow x y).
Proof. exact hs_matrix_ok. Qed.
Print Assumptions C105_matrix.

(** Two pixels *)
Definition two_px : list Z := [1; 2; 3; 4; 5; 6; 7; 8].
Definition in_px := mkvec (Ptr 0) 8.
Definition bytes_of {A} (r : res (option A * st)) (get : A -> vec) : option (res (list Z)) :=
  match r with
  | Ok (Some a, s) => Some (match read_vec (get a) s with Ok (l, _) => Ok l | UB u => UB u | Hang => Hang | Abort => Abort end)
  | _ => None
  end.
Example C105_ex :
  (wf (st1 two_px) /\ dims_ok 2 1 /\ holds (st1 two_px) (v_ptr in_px) (of_list two_px) /\ image (2 * 1 * 4) (of_list two_px)) /\
  In (hs_flipX, flip_x) (turning ++ toning) /\
  bytes_of (hs_flipX 2 1 in_px (st1 two_px)) (fun v => v) = Some (Ok [5; 6; 7; 8; 1; 2; 3; 4]) /\
  bytes_of (hs_rotate90CW 2 1 in_px (st1 two_px)) (fun v => v) = Some (Ok [1; 2; 3; 4; 5; 6; 7; 8]) /\
  bytes_of (hs_crop 2 1 4 1 0 1 1 in_px (st1 two_px)) (fun v => v) = Some (Ok [5; 6; 7; 8]) /\
  bytes_of (hs_rgbaToGrayscale 2 1 in_px (st1 two_px)) (fun v => v) = Some (Ok [1; 5]) /\
  bytes_of (hs_trim 2 1 4 in_px (st1 two_px)) snd = Some (Ok [5; 6; 7; 8]) /\
  hs_flipX 0 1 in_px (st1 two_px) = Ok (None, st1 two_px) /\
  match hs_flipX 2 1 in_px (st1_oom two_px) with Ok (None, _) => True | _ => False end.
Proof.
  split.
  { split; [apply wf_st1|]. split; [unfold dims_ok, is_u32, SIZE_MAX; lia|]. split; [apply holds_st1|]. apply image_of_list; reflexivity. }
  split; [left; reflexivity|].
  repeat (split; [vm_compute; reflexivity|]). vm_compute. exact I.
Qed.

(** ** C106: the same does not hold of the functions whose C result has fewer channels
    than the binding assumes: every picture they return reaches past its memory. *)
Theorem C106_sobel_refuted : forall w h ch s v b, 0 < w < 2147483648 -> 0 < h < 2147483648 -> 1 < ch -> w * h * ch < 4294967296 ->
  wf s -> holds s (v_ptr v) b -> image (w * h * 4) b -> hs_unreadable s (hs_sobelEdgeDetection w h ch v s).
Proof. exact hs_over_sobel. Qed.
Print Assumptions C106_sobel_refuted.

Theorem C106_corner_refuted : forall w h sigma s v b, 0 < w -> 0 < h -> w * h < 1073741824 -> sigma_ok sigma ->
  half_window sigma <= w -> half_window sigma <= h ->
  wf s -> holds s (v_ptr v) b -> image (w * h) b -> hs_unreadable s (hs_foerstnerCorner w h sigma v s).
Proof. exact hs_over_foerstner. Qed.
Print Assumptions C106_corner_refuted.

Theorem C106_morphology_refuted : forall w h r s v b, morph_ok w h r -> w * h <= 536870911 ->
  wf s -> holds s (v_ptr v) b -> image (w * h) b ->
  hs_unreadable s (hs_binaryDilationDisk w h r v s) /\ hs_unreadable s (hs_binaryErosionDisk w h r v s) /\
  hs_unreadable s (hs_binaryClosingDisk w h r v s) /\ hs_unreadable s (hs_binaryOpeningDisk w h r v s).
Proof. exact hs_over_morph. Qed.
Print Assumptions C106_morphology_refuted.

Theorem C106_binary_refuted : forall w h fg bg s v b, 0 < w -> 0 < h -> w * h <= 536870911 ->
  wf s -> holds s (v_ptr v) b -> image (w * h * 4) b -> hs_unreadable s (hs_convertToBinary w h fg bg v s).
Proof. exact hs_over_binary. Qed.
Print Assumptions C106_binary_refuted.

(** They do return vectors: one pixel, memory not exhausted. *)
Example C106_ex : morph_ok 1 1 1 /\
  bytes_of (hs_binaryDilationDisk 1 1 1 (mkvec (Ptr 0) 1) (st1 [255])) (fun v => v) = Some (UB OutOfBounds) /\
  bytes_of (hs_convertToBinary 2 1 (Spec_Parse.txt "010203"%string) (Spec_Parse.txt "000000"%string) in_px (st1 two_px)) (fun v => v) = Some (UB OutOfBounds) /\
  bytes_of (hs_sobelEdgeDetection 2 1 4 in_px (st1 two_px)) (fun v => v) = Some (UB OutOfBounds) /\
  bytes_of (hs_sobelEdgeDetection 2 1 1 (mkvec (Ptr 0) 2) (st1 [7; 9])) (fun v => v) = Some (Ok [0; 0]).
Proof. split; [unfold morph_ok; lia|]. repeat split; vm_compute; reflexivity. Qed.

(** ** C107: a vector shorter than the size passed with it is not refused, but read
    past its end. *)
Theorem C107_short_refuted :
  (forall F f, In (F, f) (turning ++ toning) -> F 2 1 (mkvec (Ptr 0) 4) (st1 [1; 2; 3; 4]) = UB OutOfBounds) /\
  hs_applyGlobalThreshold 5 100 (mkvec (Ptr 0) 4) (st1 [1; 2; 3; 4]) = UB OutOfBounds /\
  hs_drawDisk 2 1 4 (Spec_Parse.txt "ff0000"%string) d1 d1 d0 (mkvec (Ptr 0) 4) (st1 [1; 2; 3; 4]) = UB OutOfBounds.
Proof. exact short_vectors. Qed.
Print Assumptions C107_short_refuted.

(** ** C108: the transform for two quadrilaterals; when the C function falls back to its
    static identity matrix, the binding releases that too. *)
Theorem C108_fallback_refuted : forall id src dst s,
  (exists p, In p (M_Persp.corner_list src ++ M_Persp.corner_list dst) /\ (is_finite (fst p) = false \/ is_finite (snd p) = false)) ->
  forall m, Spec_Persp.holds_mat s id m -> hs_calculatePerspectiveTransform id src dst s = UB BadFree.
Proof. exact hs_persp_fallback. Qed.
Print Assumptions C108_fallback_refuted.

(** Also for corners that are numbers: a source quadrilateral that is a single point *)
Theorem C108_point_refuted : forall s m, Spec_Persp.holds_mat s (Ptr 9) m -> wf s -> orc s (tick s) = true ->
  hs_calculatePerspectiveTransform (Ptr 9) (P_PerspEx.c4 1 1 1 1 1 1 1 1) (P_PerspEx.c4 0 0 4 0 4 2 0 2) s = UB BadFree.
Proof. exact point_transform. Qed.
Print Assumptions C108_point_refuted.

Theorem C108_transform_partial : forall id src dst s m0, wf s -> Spec_Persp.holds_mat s id m0 -> orc s (tick s) = true ->
  hs_calculatePerspectiveTransform id src dst s = UB BadFree \/
  exists m s', hs_calculatePerspectiveTransform id src dst s = Ok (Some m, s') /\ Spec_Persp.bounded m /\ later s s' /\ same_mem s s' /\
    exists q s1, M_Persp.calculate_perspective_transform id (Some src) (Some dst) s = Ok (Ptr q, s1) /\ mem s1 q = Some (OMat m).
Proof. exact hs_persp_ok. Qed.
Print Assumptions C108_transform_partial.

Definition st_id : st := mkst (fun i => if i =? 9 then Some (OMat [d1; d0; d0; d0; d1; d0; d0; d0; d1]) else None) 10 (fun _ => true) 0.
Example C108_ex : (wf st_id /\ Spec_Persp.holds_mat st_id (Ptr 9) [d1; d0; d0; d0; d1; d0; d0; d0; d1] /\ orc st_id (tick st_id) = true) /\
  match hs_calculatePerspectiveTransform (Ptr 9) (P_PerspEx.c4 0 0 4 0 4 2 0 2) (P_PerspEx.c4 0 0 8 0 8 4 0 4) st_id with
  | Ok (Some m, _) => deq (nth 0 m d0) (d_of_Z 2) | _ => false end = true.
Proof.
  split; [|vm_compute; reflexivity]. split; [|split; [|reflexivity]].
  - intros i Hi. cbn in *. destruct (Z.eqb_spec i 9); [lia|reflexivity].
  - exists 9. split; reflexivity.
Qed.

(** ** C109: watershedSegmentation *)
Theorem C109_leak_refuted : forall fuel w h markers bnd s v,
  wf s -> is_u32 w -> is_u32 h -> orc s (tick s) = true -> Z.of_nat (length markers) < 4294967296 ->
  (markers = [] \/ w = 0 \/ h = 0 \/
   (is_i32 w /\ is_i32 h /\ P_Watershed.small_markers (of_list markers) (Z.of_nat (length markers)) /\
    exists m, 0 <= m < Z.of_nat (length markers) /\ P_Watershed.bad_marker w h (of_list markers) m)) ->
  exists s', hs_watershedSegmentation fuel w h markers bnd v s = Ok (None, s') /\
    mem s (nxt s) = None /\ mem s' (nxt s) = Some (OPts (of_list markers)).
Proof. exact hs_watershed_leak. Qed.
Print Assumptions C109_leak_refuted.

Theorem C109_watershed_partial : forall fuel w h markers bnd s v b,
  wf s -> 0 < w -> 0 < h -> w * h < 1073741824 -> w * h + 1 < Z.of_nat fuel -> (forall n, orc s n = true) ->
  holds s (v_ptr v) b -> image (w * h) b -> markers_ok w h (of_list markers) (Z.of_nat (length markers)) ->
  hs_returns s (hs_watershedSegmentation fuel w h markers bnd v s) (w * h * 4)
    (fun b' => forall m, 0 <= m < Z.of_nat (length markers) ->
       (forall m', 0 <= m' < Z.of_nat (length markers) -> m' <> m ->
          (mx (of_list markers) m', my (of_list markers) m') <> (mx (of_list markers) m, my (of_list markers) m)) ->
       (pixv b' w 4 (mx (of_list markers) m) (my (of_list markers) m) 0,
        pixv b' w 4 (mx (of_list markers) m) (my (of_list markers) m) 1,
        pixv b' w 4 (mx (of_list markers) m) (my (of_list markers) m) 2) = region_colour m).
Proof. exact hs_watershed_ok. Qed.
Print Assumptions C109_watershed_partial.

Example C109_ex :
  bytes_of (hs_watershedSegmentation 10 2 1 [(d0, d0); (d1, d0)] false (mkvec (Ptr 0) 2) (st1 [3; 3])) (fun v => v) =
    Some (Ok [255; 0; 0; 255; 0; 255; 0; 255]) /\
  match hs_watershedSegmentation 10 2 1 [(d1, d1)] false (mkvec (Ptr 0) 2) (st1 [3; 3]) with
  | Ok (None, s) => match mem s 1 with Some _ => True | None => False end | _ => False end.
Proof. split; vm_compute; auto. Qed.

(** ** C110: the functions named in-place leave their argument alone and return a
    changed copy. *)
Theorem C110_threshold : forall n t v s b, wf s -> holds s (v_ptr v) b -> 0 <= n <= v_len v -> image (v_len v) b ->
  hs_returns s (hs_applyGlobalThreshold n t v s) (v_len v) (fun b' =>
    (forall i, 0 <= i < n -> bget b' i = match bget b i with Some g => Some (if t <? g then 255 else 0) | None => None end) /\
    forall i, n <= i < v_len v -> bget b' i = bget b i).
Proof. exact hs_threshold_ok. Qed.
Print Assumptions C110_threshold.

Theorem C110_circle : exists ring, (forall r, 0 <= r -> ring_like r (ring r)) /\
  forall w h ch hex r cx cy v s b cr cg cb, draw_ok w h ch r cx cy ->
  wf s -> holds s (v_ptr v) b -> v_len v = w * h * ch -> image (w * h * ch) b -> parse_hex_color hex = Ok (cr, cg, cb) ->
  exists col, drawn_colour ch cr cg cb col /\
  hs_returns s (hs_drawCircle w h ch hex r cx cy v s) (w * h * ch) (fun b' =>
    forall x y c, inside w h x y -> 0 <= c < ch ->
      (ring (int_part r) (x - int_part cx) (y - int_part cy) -> pix b' w ch x y c = Some (col c)) /\
      (~ ring (int_part r) (x - int_part cx) (y - int_part cy) -> pix b' w ch x y c = pix b w ch x y c)).
Proof. exact hs_circle_ok. Qed.
Print Assumptions C110_circle.

Theorem C110_disk : exists disk, (forall r, 0 <= r -> disk_like r (disk r)) /\
  forall w h ch hex r cx cy v s b cr cg cb, draw_ok w h ch r cx cy ->
  wf s -> holds s (v_ptr v) b -> v_len v = w * h * ch -> image (w * h * ch) b -> parse_hex_color hex = Ok (cr, cg, cb) ->
  exists col, drawn_colour ch cr cg cb col /\
  hs_returns s (hs_drawDisk w h ch hex r cx cy v s) (w * h * ch) (fun b' =>
    forall x y c, inside w h x y -> 0 <= c < ch ->
      (disk (int_part r) (x - int_part cx) (y - int_part cy) -> pix b' w ch x y c = Some (col c)) /\
      (~ disk (int_part r) (x - int_part cx) (y - int_part cy) -> pix b' w ch x y c = pix b w ch x y c)).
Proof. exact hs_disk_ok. Qed.
Print Assumptions C110_disk.

Example C110_ex : draw_ok 2 1 4 d0 d1 d0 /\
  bytes_of (hs_drawDisk 2 1 4 (Spec_Parse.txt "ff0000"%string) d0 d0 (d_of_Z 5) in_px (st1 two_px)) (fun v => v) = Some (Ok two_px) /\
  bytes_of (hs_applyGlobalThreshold 3 1 in_px (st1 two_px)) (fun v => v) = Some (Ok [0; 255; 255; 4; 5; 6; 7; 8]) /\
  match hs_applyGlobalThreshold 3 1 in_px (st1 two_px) with
  | Ok (_, s) => match mem s 0 with Some (OBytes b) => to_list b = map Some two_px | _ => False end | _ => False end.
Proof. split; [|repeat split; vm_compute; reflexivity]. unfold draw_ok. split; [lia|]. split; [lia|]. split; [tauto|]. repeat split; vm_compute; congruence. Qed.

(** ** C111: pictures of 4 GiB and more: the vector is too short. *)
Theorem C111_large_refuted : forall F f w h s v b, In (F, f) turning -> wf s -> dims_ok w h -> 1073741824 <= w * h ->
  holds s (v_ptr v) b -> image (w * h * 4) b ->
  exists r s', F w h v s = Ok (r, s') /\
    match r with None => same_mem s s' /\ alloc_failed s s' | Some v' => v_len v' < w * h * 4 end.
Proof. exact large_wrong. Qed.
Print Assumptions C111_large_refuted.

Example C111_ex : dims_ok 32768 32768 /\ 1073741824 <= 32768 * 32768 /\ image (32768 * 32768 * 4) (bconst (32768 * 32768 * 4) 7) /\
  mul3 32768 32768 4 = 0.
Proof.
  split; [unfold dims_ok, is_u32, SIZE_MAX; lia|]. split; [lia|]. split; [|reflexivity].
  split; [reflexivity|]. intros i Hi. exists 7. split; [reflexivity|unfold byte; lia].
Qed.
