(** * Theorems C18, C19, C52, C90, C91, C101: Otsu thresholding *)
From Coq Require Import Reals.
From Verif Require Import Base F Heap Spec Spec_Color Spec_Otsu M_Otsu P_Otsu P_Otsu2 P_Otsu3 ExUtil.
Local Open Scope Z_scope.

(** ** C18, C19: one threshold, a function of the gray-level counts alone, rules
    both modes.  In double mode the band t-16..t+16 wraps around modulo 256 when
    t < 16 or t > 239. *)
Theorem C18_otsu : exists T : (Z -> Z) -> Z -> Z,
  (forall c n, 0 <= T c n < 256) /\
  (forall c c' n, (forall v, 0 <= v < 256 -> c v = c' v) -> T c n = T c' n) /\
  forall w h s p b, wf s -> dims_ok w h -> w * h < 4294967296 -> holds s p b -> image (w * h * 4) b ->
    let t := T (fun v => count_px w h (fun x y => gray_at b w x y =? v)) (w * h) in
    returns_fresh s (otsu_threshold_rgba w h false p s) (fun b' =>
      exact_image (w * h * 4) b' /\
      forall x y, 0 <= x < w -> 0 <= y < h ->
        opaque_gray b' w x y (if t <? gray_at b w x y then 255 else 0)) /\
    returns_fresh s (otsu_threshold_rgba w h true p s) (fun b' =>
      exact_image (w * h * 4) b' /\
      forall x y, 0 <= x < w -> 0 <= y < h ->
        opaque_gray b' w x y
          (if t <? 16 then (if gray_at b w x y <? t + 240 then 0 else 255)
           else if 239 <? t then (if gray_at b w x y <? t - 16 then 0 else 255)
           else dbl_map (t - 16) (t + 16) (gray_at b w x y))).
Proof. exact otsu_spec. Qed.
Print Assumptions C18_otsu.

(** Pictures with the same gray-level counts (in particular pixel permutations
    of one another) are thresholded identically. *)
Theorem C18_same_histogram : forall dbl w1 h1 b1 b1' w2 h2 b2 b2' x1 y1 x2 y2,
  dims_ok w1 h1 -> dims_ok w2 h2 -> w1 * h1 = w2 * h2 -> w1 * h1 < 4294967296 ->
  image (w1 * h1 * 4) b1 -> image (w2 * h2 * 4) b2 ->
  (forall v, 0 <= v < 256 -> count_px w1 h1 (fun x y => gray_at b1 w1 x y =? v) =
                             count_px w2 h2 (fun x y => gray_at b2 w2 x y =? v)) ->
  calls (fun w h p => otsu_threshold_rgba w h dbl p) w1 h1 b1 b1' ->
  calls (fun w h p => otsu_threshold_rgba w h dbl p) w2 h2 b2 b2' ->
  0 <= x1 < w1 -> 0 <= y1 < h1 -> 0 <= x2 < w2 -> 0 <= y2 < h2 ->
  gray_at b1 w1 x1 y1 = gray_at b2 w2 x2 y2 ->
  forall c, 0 <= c < 4 -> pix b1' w1 4 x1 y1 c = pix b2' w2 4 x2 y2 c.
Proof. exact otsu_same_histogram. Qed.
Print Assumptions C18_same_histogram.

Theorem C18_otsu_rejects : forall w h s p dbl, wf s ->
  p = Null \/ w = 0 \/ h = 0 -> returns_null s (otsu_threshold_rgba w h dbl p s).
Proof. exact otsu_rejects. Qed.
Print Assumptions C18_otsu_rejects.

Example C18_ex :
  (wf (st1 pic32) /\ dims_ok 3 2 /\ holds (st1 pic32) (Ptr 0) (of_list pic32) /\ image (3 * 2 * 4) (of_list pic32)) /\
  out_bytes (otsu_threshold_rgba 3 2 false (Ptr 0) (st1 pic32)) =
    Some (map Some [0;0;0;255; 0;0;0;255; 255;255;255;255; 0;0;0;255; 0;0;0;255; 255;255;255;255]) /\
  out_bytes (otsu_threshold_rgba 3 2 true (Ptr 0) (st1 pic32)) =
    Some (map Some [0;0;0;255; 0;0;0;255; 255;255;255;255; 0;0;0;255; 127;127;127;255; 255;255;255;255]) /\
  out_bytes (otsu_threshold_rgba 3 2 true (Ptr 0) (st1_oom pic32)) = None.
Proof. split; [exact pic32_hyps|]. do 2 (split; [vm_compute; reflexivity|]). vm_compute; reflexivity. Qed.

(** ** C19: in both modes the output is a non-decreasing function of the gray level *)
Theorem C19_monotone : forall dbl w h b b' x y x' y' g g',
  dims_ok w h -> w * h < 4294967296 -> image (w * h * 4) b ->
  calls (fun w h p => otsu_threshold_rgba w h dbl p) w h b b' ->
  0 <= x < w -> 0 <= y < h -> 0 <= x' < w -> 0 <= y' < h ->
  gray_at b w x y <= gray_at b w x' y' ->
  pix b' w 4 x y 0 = Some g -> pix b' w 4 x' y' 0 = Some g' -> g <= g'.
Proof. exact otsu_monotone. Qed.
Print Assumptions C19_monotone.

(** ** C19: but "above t+16 is white" fails.  In this two-pixel picture (black,
    and gray 100) the single threshold makes the second pixel white, and
    nevertheless the double threshold makes it black. *)
Definition otsu_pair : list Z := [0;0;0;255; 100;100;100;255].
Theorem C19_band_refuted : exists b1 b2,
  image (2 * 1 * 4) (of_list otsu_pair) /\
  calls (fun w h p => otsu_threshold_rgba w h false p) 2 1 (of_list otsu_pair) b1 /\
  calls (fun w h p => otsu_threshold_rgba w h true p) 2 1 (of_list otsu_pair) b2 /\
  pix b1 2 4 0 0 0 = Some 0 /\ pix b1 2 4 1 0 0 = Some 255 /\
  pix b2 2 4 0 0 0 = Some 0 /\ pix b2 2 4 1 0 0 = Some 0.
Proof.
  exists (call1 (fun w h p => otsu_threshold_rgba w h false p) 2 1 (of_list otsu_pair)).
  exists (call1 (fun w h p => otsu_threshold_rgba w h true p) 2 1 (of_list otsu_pair)).
  split; [apply image_of_list; reflexivity|].
  do 2 (split; [apply call1_calls; vm_compute; reflexivity|]).
  do 3 (split; [vm_compute; reflexivity|]). vm_compute; reflexivity.
Qed.
Print Assumptions C19_band_refuted.

(** ** C52: a picture with several gray levels can come out uniformly black.
    One pixel of level 253, 277 of level 254 and one of level 255: the float
    cumulative sum ends at 1 - 2^-24 instead of 1, and the spurious class wins. *)
Definition px (v : Z) : list Z := [v; v; v; 255].
Definition otsu_black : list Z := px 253 ++ concat (repeat (px 254) 277) ++ px 255.
Theorem C52_two_classes_refuted : exists b',
  image (279 * 1 * 4) (of_list otsu_black) /\
  gray_at (of_list otsu_black) 279 0 0 = 253 /\ gray_at (of_list otsu_black) 279 278 0 = 255 /\
  calls (fun w h p => otsu_threshold_rgba w h false p) 279 1 (of_list otsu_black) b' /\
  to_list b' = concat (repeat [Some 0; Some 0; Some 0; Some 255] 279).
Proof.
  exists (call1 (fun w h p => otsu_threshold_rgba w h false p) 279 1 (of_list otsu_black)).
  split; [apply image_of_list; reflexivity|].
  do 2 (split; [vm_compute; reflexivity|]).
  split; [apply call1_calls; vm_compute; reflexivity|]. vm_compute; reflexivity.
Qed.
Print Assumptions C52_two_classes_refuted.

(** ** C90: the threshold, one and the same for both modes, separates the gray
    levels of the picture nearly as well as any other: no other threshold has a
    between-class variance more than 40 square levels larger, except that in
    pictures of more than 32768 pixels variances up to 2600 (of at most 16256) may
    be missed. *)
Theorem C90_best_split : forall w h s p b,
  wf s -> dims_ok w h -> w * h < 4294967296 -> holds s p b -> image (w * h * 4) b ->
  exists t, best_split w h (gray_at b w) t /\
    returns_fresh s (otsu_threshold_rgba w h false p s) (fun b' => exact_image (w * h * 4) b' /\
      forall x y, 0 <= x < w -> 0 <= y < h -> opaque_gray b' w x y (single_map t (gray_at b w x y))) /\
    returns_fresh s (otsu_threshold_rgba w h true p s) (fun b' => exact_image (w * h * 4) b' /\
      forall x y, 0 <= x < w -> 0 <= y < h -> opaque_gray b' w x y (double_map t (gray_at b w x y))).
Proof. exact otsu_best. Qed.
Print Assumptions C90_best_split.

(** The picture of C18_ex separates well, so the claim binds. *)
Example C90_ex :
  (wf (st1 pic32) /\ dims_ok 3 2 /\ holds (st1 pic32) (Ptr 0) (of_list pic32) /\ image (3 * 2 * 4) (of_list pic32)) /\
  map (fun y => map (fun x => gray_at (of_list pic32) 3 x y) [0; 1; 2]) [0; 1] = [[1; 18; 108]; [7; 48; 208]] /\
  separation (pixels_with 3 2 (gray_at (of_list pic32) 3)) 48 = (8649 / 2)%R /\
  separation (pixels_with 3 2 (gray_at (of_list pic32) 3)) 18 = (28561 / 9)%R.
Proof.
  split; [exact pic32_hyps|]. split; [vm_compute; reflexivity|]. set (c := pixels_with 3 2 (gray_at (of_list pic32) 3)). split.
  - rewrite (separation_form c 48 4 6 74 390); try lia; try (vm_compute; reflexivity). field.
  - rewrite (separation_form c 18 3 6 26 390); try lia; try (vm_compute; reflexivity). field.
Qed.

(** ** C91: a picture of two gray levels comes out black where it has the darker one
    and white where it has the brighter one, whatever its size, unless the two
    levels are so close or one of them so rare that their separation is below 1. *)
Theorem C91_two_tone : forall w h s p b u v,
  wf s -> dims_ok w h -> w * h < 4294967296 -> holds s p b -> image (w * h * 4) b ->
  u < v -> (forall x y, 0 <= x < w -> 0 <= y < h -> gray_at b w x y = u \/ gray_at b w x y = v) ->
  (w * h) * (w * h) <= pixels_with w h (gray_at b w) u * pixels_with w h (gray_at b w) v * ((v - u) * (v - u)) ->
  returns_fresh s (otsu_threshold_rgba w h false p s) (fun b' => exact_image (w * h * 4) b' /\
    forall x y, 0 <= x < w -> 0 <= y < h -> opaque_gray b' w x y (if gray_at b w x y =? v then 255 else 0)).
Proof. exact otsu_two. Qed.
Print Assumptions C91_two_tone.

Definition two_tone : list Z := px 40 ++ px 43 ++ px 40 ++ px 43 ++ px 40 ++ px 40.
Example C91_ex :
  (wf (st1 two_tone) /\ dims_ok 3 2 /\ holds (st1 two_tone) (Ptr 0) (of_list two_tone) /\ image (3 * 2 * 4) (of_list two_tone)) /\
  (forall x y, 0 <= x < 3 -> 0 <= y < 2 -> gray_at (of_list two_tone) 3 x y = 40 \/ gray_at (of_list two_tone) 3 x y = 43) /\
  (3 * 2) * (3 * 2) <= pixels_with 3 2 (gray_at (of_list two_tone) 3) 40 * pixels_with 3 2 (gray_at (of_list two_tone) 3) 43 * ((43 - 40) * (43 - 40)) /\
  out_bytes (otsu_threshold_rgba 3 2 false (Ptr 0) (st1 two_tone)) =
    Some (map Some (px 0 ++ px 255 ++ px 0 ++ px 255 ++ px 0 ++ px 0)).
Proof.
  split; [split; [apply wf_st1|split; [unfold dims_ok, is_u32, SIZE_MAX; lia|split; [apply holds_st1|apply image_of_list; reflexivity]]]|].
  split; [|split; [vm_compute; discriminate|vm_compute; reflexivity]].
  intros x y Hx Hy. assert (x = 0 \/ x = 1 \/ x = 2) as [-> | [-> | ->]] by lia; assert (y = 0 \/ y = 1) as [-> | ->] by lia; vm_compute; auto.
Qed.

(** ** C101: refuted: a picture whose pixels are all black or white need not survive
    thresholding.  In this one of 4001 x 4999 pixels one pixel is black, the others are
    white, and all come out black. *)
Theorem C101_single_refuted : exists b, image (4001 * 4999 * 4) b /\
  (forall x y, 0 <= x < 4001 -> 0 <= y < 4999 -> gray_at b 4001 x y = if (x =? 0) && (y =? 0) then 0 else 255) /\
  forall s p, wf s -> holds s p b ->
    returns_fresh s (otsu_threshold_rgba 4001 4999 false p s) (fun b' => exact_image (4001 * 4999 * 4) b' /\
      forall x y, 0 <= x < 4001 -> 0 <= y < 4999 -> opaque_gray b' 4001 x y 0).
Proof. exists one_black. split; [exact one_black_image|]. split; [exact one_black_gray|exact one_black_lost]. Qed.
Print Assumptions C101_single_refuted.

(** It does survive if it has at most 2^24 pixels, *)
Theorem C101_single_partial : forall w h b, dims_ok w h -> w * h < 4294967296 -> image (w * h * 4) b ->
  (forall x y, 0 <= x < w -> 0 <= y < h -> gray_at b w x y = 0 \/ gray_at b w x y = 255) ->
  forall s p, w * h <= 16777216 -> wf s -> holds s p b ->
  returns_fresh s (otsu_threshold_rgba w h false p s) (fun b' => exact_image (w * h * 4) b' /\
    forall x y, 0 <= x < w -> 0 <= y < h -> opaque_gray b' w x y (gray_at b w x y)).
Proof. exact bw_single. Qed.
Print Assumptions C101_single_partial.

(** and in double mode always. *)
Theorem C101_double : forall w h b, dims_ok w h -> w * h < 4294967296 -> image (w * h * 4) b ->
  (forall x y, 0 <= x < w -> 0 <= y < h -> gray_at b w x y = 0 \/ gray_at b w x y = 255) ->
  forall s p, wf s -> holds s p b ->
  returns_fresh s (otsu_threshold_rgba w h true p s) (fun b' => exact_image (w * h * 4) b' /\
    forall x y, 0 <= x < w -> 0 <= y < h -> opaque_gray b' w x y (gray_at b w x y)).
Proof. exact bw_double. Qed.
Print Assumptions C101_double.

Definition bw_pic : list Z := px 0 ++ px 255 ++ px 0 ++ px 255 ++ px 0 ++ px 0.
Example C101_ex :
  (wf (st1 bw_pic) /\ dims_ok 3 2 /\ holds (st1 bw_pic) (Ptr 0) (of_list bw_pic) /\ image (3 * 2 * 4) (of_list bw_pic)) /\
  (forall x y, 0 <= x < 3 -> 0 <= y < 2 -> gray_at (of_list bw_pic) 3 x y = 0 \/ gray_at (of_list bw_pic) 3 x y = 255) /\
  out_bytes (otsu_threshold_rgba 3 2 false (Ptr 0) (st1 bw_pic)) = Some (map Some bw_pic) /\
  out_bytes (otsu_threshold_rgba 3 2 true (Ptr 0) (st1 bw_pic)) = Some (map Some bw_pic) /\
  wf (stb one_black) /\ holds (stb one_black) (Ptr 0) one_black.
Proof.
  split; [split; [apply wf_st1|split; [unfold dims_ok, is_u32, SIZE_MAX; lia|split; [apply holds_st1|apply image_of_list; reflexivity]]]|].
  split; [|split; [vm_compute; reflexivity|split; [vm_compute; reflexivity|split; [|exists 0; split; reflexivity]]]].
  - intros x y Hx Hy. assert (x = 0 \/ x = 1 \/ x = 2) as [-> | [-> | ->]] by lia; assert (y = 0 \/ y = 1) as [-> | ->] by lia; vm_compute; auto.
  - intros i Hi. cbn [stb mem nxt] in *. unfold upd. destruct (Z.eqb_spec i 0); [lia|reflexivity].
Qed.
