(** * T_Smart: theorems about fcv_bw_smart *)
From Coq Require Import Reals.
From Verif Require Import Base F Heap Spec ExUtil Spec_Blur Spec_Smart M_Otsu M_Smart P_Color P_Blur P_Smart.
Local Open Scope Z_scope.

(** ** C71: the result is what Otsu's thresholding makes of the picture that shows,
    for each pixel, how much its gray value exceeds the mean of its surroundings,
    the radius being a tenth of the square root of the number of pixels.  Nothing
    leaks, whichever allocation fails. *)
Theorem C71_smart : forall e w h dbl s p b,
  exp_ok e -> dims_ok w h -> w * h <= 100000000 ->
  wf s -> holds s p b -> image (w * h * 4) b ->
  returns_fresh s (bw_smart e w h dbl p s) (fun b' => exact_image (w * h * 4) b' /\
    exists r d hf, (Rabs (r - sqrt (IZR (w * h)) / 10) <= 1 / 100000000)%R /\
      detail w h r (gray_at b w) d /\
      exact_image (w * h * 4) hf /\
      (forall x y, 0 <= x < w -> 0 <= y < h -> opaque_gray hf w x y (d x y)) /\
      calls (fun w h p => otsu_threshold_rgba w h dbl p) w h hf b').
Proof. exact smart_ok. Qed.
Print Assumptions C71_smart.

Theorem C71_rejects : forall e w h dbl s p, wf s -> p = Null \/ w = 0 \/ h = 0 ->
  returns_null s (bw_smart e w h dbl p s).
Proof. exact smart_rejects. Qed.
Print Assumptions C71_rejects.

(** The run uses an exp that is right at 0, the only argument it gets here. *)
Example C71_ex : exp_ok exp_round /\
  (wf (st1 pic32) /\ dims_ok 3 2 /\ holds (st1 pic32) (Ptr 0) (of_list pic32) /\ image (3 * 2 * 4) (of_list pic32)) /\
  out_bytes (bw_smart (fun _ => F.d1) 3 2 false (Ptr 0) (st1 pic32)) =
    Some (map Some [0;0;0;255; 0;0;0;255; 255;255;255;255; 0;0;0;255; 0;0;0;255; 0;0;0;255]).
Proof.
  split; [exact exp_round_ok|]. split; [exact pic32_hyps|]. vm_compute. reflexivity.
Qed.

(** ** C72: refuted: every picture of more than 10^8 pixels is refused, although
    memory was available and the picture is far from any limit of the format. *)
Theorem C72_big_refuted : forall e w h dbl s p b, is_u32 w -> is_u32 h -> 100000000 < w * h <= 1073741824 ->
  wf s -> holds s p b -> image (w * h * 4) b -> returns_null s (bw_smart e w h dbl p s).
Proof. exact smart_big. Qed.
Print Assumptions C72_big_refuted.

Example C72_ex : is_u32 10001 /\ is_u32 10000 /\ 100000000 < 10001 * 10000 <= 1073741824 /\
  wf (st_const (10001 * 10000 * 4) 7) /\
  holds (st_const (10001 * 10000 * 4) 7) (Ptr 0) (bconst (10001 * 10000 * 4) 7) /\
  image (10001 * 10000 * 4) (bconst (10001 * 10000 * 4) 7).
Proof. unfold is_u32. do 3 (split; [lia|]). exact smart_big_ex. Qed.

(** ** C73: refuted: a dark dot on a light page comes out white on black if the
    page is 6 by 6 pixels, whatever the rounding of exp. *)
Theorem C73_dot_refuted : forall e, exp_ok e ->
  exists q s' b', bw_smart e 6 6 false (Ptr 0) (st1 dot) = Ok (Ptr q, s') /\ mem s' q = Some (OBytes b') /\
    forall x y, 0 <= x < 6 -> 0 <= y < 6 -> pix b' 6 4 x y 0 = Some (if (x =? 0) && (y =? 3) then 255 else 0).
Proof. exact smart_dot. Qed.
Print Assumptions C73_dot_refuted.

Example C73_dot : exp_ok exp_round /\ length dot = 144%nat /\
  forall x y, 0 <= x < 6 -> 0 <= y < 6 -> gray_at (of_list dot) 6 x y = if (x =? 0) && (y =? 3) then 20 else 200.
Proof.
  split; [exact exp_round_ok|]. split; [reflexivity|]. intros x y Hx Hy.
  assert (Cx : x = 0 \/ x = 1 \/ x = 2 \/ x = 3 \/ x = 4 \/ x = 5) by lia.
  assert (Cy : y = 0 \/ y = 1 \/ y = 2 \/ y = 3 \/ y = 4 \/ y = 5) by lia.
  destruct Cx as [-> | [-> | [-> | [-> | [-> | ->]]]]], Cy as [-> | [-> | [-> | [-> | [-> | ->]]]]]; reflexivity.
Qed.

(** What holds: if one pixel rises above its surroundings by 5/2 more than
    another, it does not come out darker. *)
Theorem C73_order_partial : forall e w h dbl s p b, exp_ok e -> dims_ok w h -> w * h <= 100000000 ->
  wf s -> holds s p b -> image (w * h * 4) b ->
  returns_fresh s (bw_smart e w h dbl p s) (fun b' =>
    exists r, (Rabs (r - sqrt (IZR (w * h)) / 10) <= 1 / 100000000)%R /\
      forall x y x' y' v v', 0 <= x < w -> 0 <= y < h -> 0 <= x' < w -> 0 <= y' < h ->
        (rise w h r b x y + 5 / 2 <= rise w h r b x' y')%R ->
        pix b' w 4 x y 0 = Some v -> pix b' w 4 x' y' 0 = Some v' -> v <= v').
Proof. exact smart_order. Qed.
Print Assumptions C73_order_partial.
