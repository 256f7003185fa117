(** * T_Blur: theorems about fcv_apply_gaussian_blur *)
From Coq Require Import Reals.
From Flocq Require Import Core.
From Verif Require Import Base F Heap Spec ExUtil Spec_Blur M_Blur P_Blur.
Local Open Scope Z_scope.

(** ** C46: every channel of the result is the mean of its neighbourhood under a
    bell curve (up to rounding down once per pass), so it stays within the range of
    the channel (up to 2 below); the result is opaque. *)
Theorem C46_blur : forall e w h radius s p b,
  exp_ok e -> 0 < w -> 0 < h -> w * h * 4 <= 4294967296 ->
  is_finite radius = true -> (1 / 1000000000000 <= B2R radius <= 1000)%R ->
  wf s -> holds s p b -> image (w * h * 4) b ->
  returns_fresh s (apply_gaussian_blur e w h radius p s) (blurred w h (B2R radius) b).
Proof. exact blur_ok. Qed.
Print Assumptions C46_blur.

Theorem C46_weights : forall m k, weight (IZR m) k = bell (IZR m) (IZR k).
Proof. exact weight_integer. Qed.
Print Assumptions C46_weights.

Theorem C46_range : forall e w h radius s p b c lo hi,
  exp_ok e -> 0 < w -> 0 < h -> w * h * 4 <= 4294967296 ->
  is_finite radius = true -> (1 / 1000000000000 <= B2R radius <= 1000)%R ->
  wf s -> holds s p b -> image (w * h * 4) b -> 0 <= c < 3 ->
  (forall x y, 0 <= x < w -> 0 <= y < h -> lo <= pixv b w 4 x y c <= hi) ->
  returns_fresh s (apply_gaussian_blur e w h radius p s) (fun b' =>
    forall x y, 0 <= x < w -> 0 <= y < h -> exists v, pix b' w 4 x y c = Some v /\ lo - 2 <= v <= hi).
Proof. exact blur_in_range. Qed.
Print Assumptions C46_range.

Theorem C46_zero : forall e w h radius s p b,
  0 < w -> 0 < h -> w * h * 4 <= SIZE_MAX -> is_finite radius = true -> B2R radius = 0%R ->
  wf s -> holds s p b -> image (w * h * 4) b ->
  returns_fresh s (apply_gaussian_blur e w h radius p s) (fun b' => exact_image (w * h * 4) b' /\ same_bytes (w * h * 4) b b').
Proof. exact blur_zero. Qed.
Print Assumptions C46_zero.

Theorem C46_rejects : forall e w h radius p s,
  p = Null \/ w = 0 \/ h = 0 \/ dlt radius d0 = true \/ is_finite radius = false \/
  (0 < w /\ 0 < h /\ w * h * 4 <= SIZE_MAX /\ is_finite radius = true /\ (1000 < B2R radius)%R) ->
  apply_gaussian_blur e w h radius p s = Ok (Null, s).
Proof. exact blur_rejects. Qed.
Print Assumptions C46_rejects.

(** The contract of exp can be met; a 3x2 picture; radii 3/2 and 0; a huge radius,
    a negative one. *)
Example C46_ex : exp_ok exp_round /\
  (is_finite three_halves = true /\ B2R three_halves = (3 / 2)%R) /\
  (wf (st1 pic32) /\ dims_ok 3 2 /\ holds (st1 pic32) (Ptr 0) (of_list pic32) /\ image (3 * 2 * 4) (of_list pic32)) /\
  out_bytes (apply_gaussian_blur exp_round 3 2 d0 (Ptr 0) (st1 pic32)) = Some (map Some pic32) /\
  out_bytes (apply_gaussian_blur exp_round 3 2 (d_of_Z 1001) (Ptr 0) (st1 pic32)) = None /\
  out_bytes (apply_gaussian_blur exp_round 3 2 (d_of_Z (-1)) (Ptr 0) (st1 pic32)) = None.
Proof.
  split; [exact exp_round_ok|]. split; [exact three_halves_R|]. split; [exact pic32_hyps|].
  split; [reflexivity|]. split; reflexivity.
Qed.

(** ** C47: refuted: a white picture blurred with radius 1/2 turns gray. *)
Theorem C47_constant_refuted : exists radius l w h, 0 < w /\ 0 < h /\ l = repeat 255 (Z.to_nat (w * h * 4)) /\
  is_finite radius = true /\
  forall e, exp_ok e -> returns_fresh (st1 l) (apply_gaussian_blur e w h radius (Ptr 0) (st1 l)) (fun b' =>
    pix b' w 4 0 0 0 = Some 254).
Proof. exact blur_white_gray. Qed.
Print Assumptions C47_constant_refuted.

(** What holds: the colour changes by at most 2, and only downwards. *)
Theorem C47_constant_partial : forall e w h radius s p b col,
  exp_ok e -> 0 < w -> 0 < h -> w * h * 4 <= 4294967296 ->
  is_finite radius = true -> (1 / 1000000000000 <= B2R radius <= 1000)%R ->
  wf s -> holds s p b -> image (w * h * 4) b ->
  (forall x y c, 0 <= x < w -> 0 <= y < h -> 0 <= c < 3 -> pix b w 4 x y c = Some (col c)) ->
  returns_fresh s (apply_gaussian_blur e w h radius p s) (fun b' =>
    forall x y c, 0 <= x < w -> 0 <= y < h -> 0 <= c < 3 -> exists v, pix b' w 4 x y c = Some v /\ col c - 2 <= v <= col c).
Proof. exact blur_constant. Qed.
Print Assumptions C47_constant_partial.

Example C47_ex : image (2 * 1 * 4) (of_list white) /\
  forall x y c, 0 <= x < 2 -> 0 <= y < 1 -> 0 <= c < 3 -> pix (of_list white) 2 4 x y c = Some 255.
Proof.
  split; [apply image_of_list; reflexivity|]. intros x y c Hx Hy Hc. assert (y = 0) as -> by lia.
  assert (Cx : x = 0 \/ x = 1) by lia. assert (Cc : c = 0 \/ c = 1 \/ c = 2) by lia.
  destruct Cx as [-> | ->], Cc as [-> | [-> | ->]]; reflexivity.
Qed.

(** ** C69: refuted: blurring does not commute with mirroring if the radius is not
    an integer: this row of three pixels equals its mirror image. *)
Theorem C69_mirror_refuted : forall e, exp_ok e ->
  returns_fresh (st1 stripe) (apply_gaussian_blur e 3 1 three_halves (Ptr 0) (st1 stripe))
    (fun b' => exists l r, pix b' 3 4 0 0 0 = Some l /\ pix b' 3 4 2 0 0 = Some r /\ 126 <= l /\ r <= 51).
Proof. exact blur_lopsided. Qed.
Print Assumptions C69_mirror_refuted.

(** With an integer radius a symmetric picture gives a symmetric one, up to 2. *)
Theorem C69_mirror_partial : forall e w h radius m s p b,
  exp_ok e -> 0 < w -> 0 < h -> w * h * 4 <= 4294967296 ->
  is_finite radius = true -> B2R radius = IZR m -> 1 <= m <= 1000 ->
  wf s -> holds s p b -> image (w * h * 4) b ->
  (forall x y c, 0 <= x < w -> 0 <= y < h -> 0 <= c < 3 -> pix b w 4 (w - 1 - x) y c = pix b w 4 x y c) ->
  returns_fresh s (apply_gaussian_blur e w h radius p s) (fun b' =>
    forall x y c, 0 <= x < w -> 0 <= y < h -> 0 <= c < 3 ->
      exists v v', pix b' w 4 x y c = Some v /\ pix b' w 4 (w - 1 - x) y c = Some v' /\ Z.abs (v - v') <= 2).
Proof. exact blur_mirrored. Qed.
Print Assumptions C69_mirror_partial.

Example C69_ex : stripe = [0;0;0;255; 255;255;255;255; 0;0;0;255] /\ B2R three_halves = (3 / 2)%R /\
  forall x y c, 0 <= x < 3 -> 0 <= y < 1 -> 0 <= c < 3 ->
    pix (of_list stripe) 3 4 (3 - 1 - x) y c = pix (of_list stripe) 3 4 x y c.
Proof.
  split; [reflexivity|]. split; [apply three_halves_R|]. intros x y c Hx Hy Hc. assert (y = 0) as -> by lia.
  assert (Cx : x = 0 \/ x = 1 \/ x = 2) by lia. assert (Cc : c = 0 \/ c = 1 \/ c = 2) by lia.
  destruct Cx as [-> | [-> | ->]], Cc as [-> | [-> | ->]]; reflexivity.
Qed.

(** ** C70: refuted: with the radius 2^-100 (finite, positive) the blur converts
    a NaN to a byte, whatever the picture. *)
Theorem C70_tiny_refuted : exists radius, is_finite radius = true /\ dlt d0 radius = true /\
  forall e w h s p b, exp_ok e -> 0 < w -> 0 < h -> w * h * 4 <= 4294967296 ->
    wf s -> holds s p b -> image (w * h * 4) b -> orc s (tick s) = true -> orc s (S (tick s)) = true ->
    apply_gaussian_blur e w h radius p s = UB BadCast.
Proof. exact blur_tiny_ub. Qed.
Print Assumptions C70_tiny_refuted.

Example C70_ex : orc (st1 pic32) (tick (st1 pic32)) = true /\ orc (st1 pic32) (S (tick (st1 pic32))) = true /\
  (wf (st1 pic32) /\ dims_ok 3 2 /\ holds (st1 pic32) (Ptr 0) (of_list pic32) /\ image (3 * 2 * 4) (of_list pic32)).
Proof. split; [reflexivity|]. split; [reflexivity|]. exact pic32_hyps. Qed.
