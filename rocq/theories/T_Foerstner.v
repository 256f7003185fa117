(** * T_Foerstner: theorems about fcv_foerstner_corner *)
From Coq Require Import Reals.
From Verif Require Import Base F Heap Spec ExUtil Spec_Foerstner M_Foerstner P_Foerstner P_Straight.
Local Open Scope Z_scope.

(** ** C51: memory safety and the values of the response.  Proved for pictures that
    are at least half a window wide and high and have less than 2^31 pixels, and for
    sigma up to 7 * 10^8; missing: everything else (see the refutation below). *)
Theorem C51_response_partial : forall w h sigma s p b,
  0 < w -> 0 < h -> w * h <= INT_MAX -> sigma_ok sigma ->
  half_window sigma <= w -> half_window sigma <= h ->
  wf s -> holds s p b -> image (w * h) b ->
  returns_fresh s (foerstner_corner w h p sigma s) (corner_picture w h (half_window sigma) b).
Proof. exact foerstner_safe. Qed.
Print Assumptions C51_response_partial.

Theorem C51_rejects : forall w h sigma s p, wf s -> p = Null \/ w = 0 \/ h = 0 ->
  returns_null s (foerstner_corner w h p sigma s).
Proof. exact foerstner_rejects. Qed.
Print Assumptions C51_rejects.

Example C51_ex :
  (5 * 5 <= INT_MAX /\ sigma_ok (lit 1 2) /\ half_window (lit 1 2) = 1 /\ wf (st1 square40) /\
   holds (st1 square40) (Ptr 0) (of_list square40) /\ image (5 * 5) (of_list square40)) /\
  (** ... and the hypotheses of [shows] *)
  largest 5 5 (strength (of_list square40) 5 5 1) (strength (of_list square40) 5 5 1 2 2) /\
  (1 / 1000 <= strength (of_list square40) 5 5 1 2 2)%R.
Proof. exact square_ex. Qed.

(** Refuted: a picture lower than half the window (and wider than the window) is
    always read out of bounds. *)
Theorem C51_small_refuted : forall w h sigma s p b,
  0 < w -> 0 < h -> w * h <= INT_MAX -> sigma_ok sigma ->
  h < half_window sigma -> 2 * half_window sigma < w -> (forall n, orc s n = true) ->
  wf s -> holds s p b -> image (w * h) b ->
  foerstner_corner w h p sigma s = UB OutOfBounds.
Proof. exact foerstner_low. Qed.
Print Assumptions C51_small_refuted.

Example C51_small : sigma_ok (lit 3 2) /\ half_window (lit 3 2) = 2 /\ (forall n, orc (st1 [1; 2; 3; 4; 5]) n = true) /\
  wf (st1 [1; 2; 3; 4; 5]) /\ holds (st1 [1; 2; 3; 4; 5]) (Ptr 0) (of_list [1; 2; 3; 4; 5]) /\
  image (5 * 1) (of_list [1; 2; 3; 4; 5]).
Proof. exact small_ex. Qed.

(** ** C78: refuted: the picture of an even slope has no corner, yet the response is
    255 in both channels in its middle. *)
Theorem C78_ramp_refuted :
  (forall x y, 0 <= x < 5 -> 0 <= y < 3 -> gray1 (of_list ramp) 5 x y = 10 + 5 * x + 7 * y) /\
  (forall x y, 0 <= x < 5 -> 0 <= y < 3 -> strength (of_list ramp) 5 3 1 x y = 0%R) /\
  exists q s' b', foerstner_corner 5 3 (Ptr 0) (lit 1 2) (st1 ramp) = Ok (Ptr q, s') /\
    mem s' q = Some (OBytes b') /\ pix b' 5 2 2 1 0 = Some 255 /\ pix b' 5 2 2 1 1 = Some 255.
Proof. exact ramp_noise. Qed.
Print Assumptions C78_ramp_refuted.

Example C78_ex : wf (st1 ramp) /\ holds (st1 ramp) (Ptr 0) (of_list ramp) /\ image (5 * 3) (of_list ramp) /\
  half_window (lit 1 2) = 1.
Proof. exact ramp_ex. Qed.

(** ... but there is no response in a picture that changes along an axis or a
    diagonal only.  Missing: edges in other directions, for which the statement is
    false. *)
Theorem C78_striped_partial : forall w h sigma s p b,
  0 < w -> 0 < h -> w * h <= INT_MAX -> sigma_ok sigma ->
  half_window sigma <= w -> half_window sigma <= h ->
  wf s -> holds s p b -> image (w * h) b -> striped b w h ->
  returns_fresh s (foerstner_corner w h p sigma s) (fun b' => exact_image (w * h * 2) b' /\
    forall x y, 0 <= x < w -> 0 <= y < h -> pix b' w 2 x y 0 = Some 0 /\ pix b' w 2 x y 1 = Some 0).
Proof. exact striped_quiet. Qed.
Print Assumptions C78_striped_partial.

Example C78_diagonal : sigma_ok (lit 1 2) /\ half_window (lit 1 2) = 1 /\ wf (st1 diagonal) /\
  holds (st1 diagonal) (Ptr 0) (of_list diagonal) /\ image (4 * 4) (of_list diagonal) /\ striped (of_list diagonal) 4 4.
Proof. exact diagonal_ex. Qed.

(** ** C79: refuted: the corner of a bright square, the strongest one of the picture,
    gets 254, and no pixel gets 255. *)
Theorem C79_peak_refuted :
  largest 5 5 (strength (of_list square40) 5 5 1) (strength (of_list square40) 5 5 1 2 2) /\
  exists q s' b', foerstner_corner 5 5 (Ptr 0) (lit 1 2) (st1 square40) = Ok (Ptr q, s') /\
    mem s' q = Some (OBytes b') /\ pix b' 5 2 2 2 0 = Some 254 /\
    forall x y, 0 <= x < 5 -> 0 <= y < 5 -> pix b' 5 2 x y 0 <> Some 255.
Proof. exact square_peak. Qed.
Print Assumptions C79_peak_refuted.

(** ... but the strongest corner always gets 254 or 255. *)
Theorem C79_peak_partial : forall w h k b b' x y,
  0 < w -> 0 < h -> k <= 5000 -> corner_picture w h k b b' -> 0 <= x < w -> 0 <= y < h ->
  largest w h (strength b w h k) (strength b w h k x y) -> (1 / 1000 <= strength b w h k x y)%R ->
  pix b' w 2 x y 0 = Some 254 \/ pix b' w 2 x y 0 = Some 255.
Proof. exact peak_254. Qed.
Print Assumptions C79_peak_partial.
