(** * T_Persp: theorems about perspective transforms *)
From Coq Require Import QArith Reals List Lia.
From Flocq Require Import Core BinarySingleNaN.
From Verif Require Import Base F Heap Spec ExUtil Spec_Persp M_Persp P_Persp P_Solve P_SolveQ P_PerspEx.
Import ListNotations.
Local Open Scope Z_scope.

(** ** C48: without rounding, an accepted matrix sends every corner where it should
    go, and it is the only one that does. *)
Theorem C48_exact_partial : forall src dst m, transform real_arith src dst = Some m ->
  length m = 9%nat /\ nth 8 m 0%R = 1%R /\ (forall i, (i < 9)%nat -> (Rabs (nth i m 0) <= 1000000)%R) /\
  sends m (c_tl src) (c_tl dst) /\ sends m (c_tr src) (c_tr dst) /\ sends m (c_br src) (c_br dst) /\ sends m (c_bl src) (c_bl dst) /\
  forall m', length m' = 9%nat -> nth 8 m' 0%R = 1%R ->
    sends m' (c_tl src) (c_tl dst) -> sends m' (c_tr src) (c_tr dst) -> sends m' (c_br src) (c_br dst) -> sends m' (c_bl src) (c_bl dst) ->
    m' = m.
Proof. exact transform_exact. Qed.
Print Assumptions C48_exact_partial.

Example C48_exact_ex : exists m, transform real_arith
  (h_corners (mkcorners (0, 0) (4, 0) (4, 2) (0, 2)))%Q (h_corners (mkcorners (1, 1) (8, 0) (9, 5) (0, 4)))%Q = Some m.
Proof. rewrite h_transform. vm_compute. eauto. Qed.

(** With doubles: the call ends with the static identity and no effect, or with a new
    block holding nine usable numbers - unless malloc fails. *)
Theorem C48_bounded_partial : forall id src dst s, wf s ->
  falls_back id s (calculate_perspective_transform id src dst s) \/
  returns_matrix s (calculate_perspective_transform id src dst s) bounded \/
  orc s (tick s) = false.
Proof. exact calculate_ok. Qed.
Print Assumptions C48_bounded_partial.

Theorem C48_fallback : forall id src dst s,
  (exists p, In p (corner_list src ++ corner_list dst) /\ (is_finite (fst p) = false \/ is_finite (snd p) = false)) ->
  falls_back id s (calculate_perspective_transform id (Some src) (Some dst) s).
Proof. exact calculate_rejects. Qed.
Print Assumptions C48_fallback.

Example C48_fallback_ex : In (d1, ddiv d0 d0) (corner_list (mkcorners (d0, d0) (d1, d0) (d1, ddiv d0 d0) (d0, d1)) ++ corner_list (c4 0 0 1 0 1 1 0 1)) /\
  is_finite (ddiv d0 d0) = false.
Proof. split; [right; right; left; reflexivity|reflexivity]. Qed.

(** Refuted with doubles: three of these corners lie on a line, so that no matrix
    fits; one is returned nevertheless, and it sends (30, 41) not to (0, 100) but
    more than 31 pixels away from there. *)
Theorem C48_maps_refuted : exists q s' m,
  calculate_perspective_transform (Ptr 9) (Some (c4 29 19 39 59 21 23 30 41)) (Some (c4 0 0 10 0 10 100 0 100)) st0 = Ok (Ptr q, s') /\
  mem s' q = Some (OMat m) /\ (31 < Rabs (map_y m 30 41 - 100))%R.
Proof. exact collinear_run. Qed.
Print Assumptions C48_maps_refuted.

(** ** C49: every pixel shows the point of the picture the matrix maps it to, up to
    the rounding of that point, or is transparent if that point is outside. *)
Theorem C49_sample : forall iw ih ow oh s p pm b m,
  0 < iw -> 0 < ih -> iw * ih * 4 <= 2147483647 -> 0 < ow <= 32768 -> 0 < oh <= 32768 -> ow * oh * 4 <= 2147483647 ->
  wf s -> holds s p b -> image (iw * ih * 4) b -> holds_mat s pm m -> tame m ow oh -> ~ half_turn m ->
  returns_fresh s (apply_matrix_3x3 iw ih p ow oh pm s) (fun b' => exact_image (ow * oh * 4) b' /\
    forall x y, 0 <= x < ow -> 0 <= y < oh -> exists X Y,
      (Rabs (X - map_x m x y) <= (1 + Rabs (map_x m x y)) / 10000)%R /\
      (Rabs (Y - map_y m x y) <= (1 + Rabs (map_y m x y)) / 10000)%R /\
      shows b iw ih X Y b' ow x y).
Proof. exact apply_matrix_ok. Qed.
Print Assumptions C49_sample.

Example C49_sample_ex : let s := st_pm pic32 [] persp_m in
  wf s /\ holds s (Ptr 0) (of_list pic32) /\ image (3 * 2 * 4) (of_list pic32) /\ holds_mat s (Ptr 2) persp_m /\
  tame persp_m 3 2 /\ ~ half_turn persp_m /\
  out_bytes (apply_matrix_3x3 3 2 (Ptr 0) 3 2 (Ptr 2) s) =
    Some (map Some [5;11;16;255; 27;38;47;229; 70;80;90;170; 23;29;34;127; 63;73;83;209; 121;131;141;113]).
Proof.
  cbv zeta. split; [apply wf_st_pm|]. split; [exists 0; auto|]. split; [apply pic32_hyps|]. split; [exists 2; auto|].
  split; [apply persp_tame|]. split; [apply persp_tame|]. vm_compute. reflexivity.
Qed.

(** Inside the picture no byte is above its neighbours; one may be 1 below. *)
Theorem C49_range_partial : forall iw ih ow oh s p pm b m,
  0 < iw -> 0 < ih -> iw * ih * 4 <= 2147483647 -> 0 < ow <= 32768 -> 0 < oh <= 32768 -> ow * oh * 4 <= 2147483647 ->
  wf s -> holds s p b -> image (iw * ih * 4) b -> holds_mat s pm m -> tame m ow oh -> ~ half_turn m ->
  returns_fresh s (apply_matrix_3x3 iw ih p ow oh pm s) (fun b' => exact_image (ow * oh * 4) b' /\
    forall x y, 0 <= x < ow -> 0 <= y < oh -> exists X Y,
      (Rabs (X - map_x m x y) <= (1 + Rabs (map_x m x y)) / 10000)%R /\
      (Rabs (Y - map_y m x y) <= (1 + Rabs (map_y m x y)) / 10000)%R /\
      forall c, 0 <= c < 4 -> exists v, pix b' ow 4 x y c = Some v /\
        forall lo hi, within iw ih X Y ->
          (forall i j, (i = Zfloor X \/ i = next iw (Zfloor X)) -> (j = Zfloor Y \/ j = next ih (Zfloor Y)) -> lo <= pixv b iw 4 i j c <= hi) ->
          lo - 1 <= v <= hi).
Proof. exact apply_matrix_range. Qed.
Print Assumptions C49_range_partial.

(** Matrices of whole numbers without perspective - the identity, shifts, flips,
    quarter turns - copy pixels exactly. *)
Theorem C49_exact : forall iw ih ow oh s p pm b m a1 b1 c1 d1 e1 f1,
  0 < iw -> 0 < ih -> iw * ih * 4 <= 2147483647 -> 0 < ow <= 32768 -> 0 < oh <= 32768 -> ow * oh * 4 <= 2147483647 ->
  wf s -> holds s p b -> image (iw * ih * 4) b -> holds_mat s pm m ->
  moves m a1 b1 c1 d1 e1 f1 -> small6 a1 b1 c1 d1 e1 f1 ->
  (a1, c1, e1, f1) <> (-1, 0, -1, 0) ->
  returns_fresh s (apply_matrix_3x3 iw ih p ow oh pm s) (fun b' => exact_image (ow * oh * 4) b' /\
    forall x y, 0 <= x < ow -> 0 <= y < oh -> copies b iw ih (a1 * x + b1 * y + c1) (d1 * x + e1 * y + f1) b' ow x y).
Proof. exact moves_exact. Qed.
Print Assumptions C49_exact.

(** A quarter turn of a picture of 3 by 2 pixels *)
Example C49_exact_ex : let m := whole [0; 1; 0; -1; 0; 1; 0; 0; 1] in let s := st_pm pic32 [] m in
  wf s /\ holds s (Ptr 0) (of_list pic32) /\ image (3 * 2 * 4) (of_list pic32) /\ holds_mat s (Ptr 2) m /\
  moves m 0 1 0 (-1) 0 1 /\ small6 0 1 0 (-1) 0 1 /\
  out_bytes (apply_matrix_3x3 3 2 (Ptr 0) 2 3 (Ptr 2) s) =
    Some (map Some [7;8;9;0; 1;2;3;255; 40;50;60;255; 10;20;30;255; 200;210;220;1; 100;110;120;128]).
Proof.
  cbv zeta. split; [apply wf_st_pm|]. split; [exists 0; auto|]. split; [apply pic32_hyps|]. split; [exists 2; auto|].
  split; [apply whole_moves; cbn; lia|]. split; [unfold small6; cbn; lia|]. vm_compute. reflexivity.
Qed.

(** The half turn about the origin becomes one about the centre of the picture; the
    caller's matrix is changed to that. *)
Theorem C49_half_turn : forall iw ih ow oh s p t b m,
  0 < iw -> 0 < ih -> iw * ih * 4 <= 2147483647 -> 0 < ow <= 32768 -> 0 < oh <= 32768 -> ow * oh * 4 <= 2147483647 ->
  wf s -> holds s p b -> image (iw * ih * 4) b -> holds_mat s (Ptr t) m -> moves m (-1) 0 0 0 (-1) 0 ->
  exists m', moves m' (-1) 0 (iw - 1) 0 (-1) (ih - 1) /\
  returns_fresh (with_mat s t m') (apply_matrix_3x3 iw ih p ow oh (Ptr t) s) (fun b' => exact_image (ow * oh * 4) b' /\
    forall x y, 0 <= x < ow -> 0 <= y < oh -> copies b iw ih (iw - 1 - x) (ih - 1 - y) b' ow x y).
Proof. exact half_turn_exact. Qed.
Print Assumptions C49_half_turn.

Example C49_half_turn_ex : let m := whole [-1; 0; 0; 0; -1; 0; 0; 0; 1] in let s := st_pm pic32 [] m in
  wf s /\ holds s (Ptr 0) (of_list pic32) /\ image (3 * 2 * 4) (of_list pic32) /\ holds_mat s (Ptr 2) m /\
  moves m (-1) 0 0 0 (-1) 0 /\
  out_bytes (apply_matrix_3x3 3 2 (Ptr 0) 3 2 (Ptr 2) s) =
    Some (map Some [200;210;220;1; 40;50;60;255; 7;8;9;0; 100;110;120;128; 10;20;30;255; 1;2;3;255]).
Proof.
  cbv zeta. split; [apply wf_st_pm|]. split; [exists 0; auto|]. split; [apply pic32_hyps|]. split; [exists 2; auto|].
  split; [apply whole_moves; cbn; lia|]. vm_compute. reflexivity.
Qed.

Theorem C49_rejects : forall iw ih ow oh s p pm, wf s -> p = Null \/ pm = Null \/ iw <= 0 \/ ih <= 0 \/ ow <= 0 \/ oh <= 0 ->
  returns_null s (apply_matrix_3x3 iw ih p ow oh pm s).
Proof. exact apply_rejects. Qed.
Print Assumptions C49_rejects.

(** ** C74: refuted: a matrix the library itself computed makes the library convert a
    coordinate above 2^31 to int, which is undefined. *)
Theorem C74_defined_refuted : exists q s', calculate_perspective_transform (Ptr 9) (Some bow_src) (Some bow_dst) (st1 [1; 2; 3; 4]) = Ok (Ptr q, s') /\
  apply_matrix_3x3 1 1 (Ptr 0) 2 1 (Ptr q) s' = UB BadCast.
Proof. exact far_run. Qed.
Print Assumptions C74_defined_refuted.

(** ** C75: refuted: the second use of a half-turn matrix, on a picture of another
    size, shows something else than the first would. *)
Theorem C75_reuse_refuted :
  let s := st_pm [1; 2; 3; 4; 5; 6; 7; 8] [11; 12; 13; 14; 21; 22; 23; 24; 31; 32; 33; 34] (whole [-1; 0; 0; 0; -1; 0; 0; 0; 1]) in
  out_bytes (apply_matrix_3x3 3 1 (Ptr 1) 3 1 (Ptr 2) s) = Some (map Some [31; 32; 33; 34; 21; 22; 23; 24; 11; 12; 13; 14]) /\
  out_bytes ((_ <-- apply_matrix_3x3 2 1 (Ptr 0) 2 1 (Ptr 2) ;; apply_matrix_3x3 3 1 (Ptr 1) 3 1 (Ptr 2)) s) =
    Some (map Some [21; 22; 23; 24; 11; 12; 13; 14; 0; 0; 0; 0]).
Proof. exact twice_run. Qed.
Print Assumptions C75_reuse_refuted.

(** ** C76: refuted: when memory runs out the function writes through NULL. *)
Theorem C76_oom_refuted :
  calculate_perspective_transform (Ptr 9) (Some (c4 0 0 4 0 4 2 0 2)) (Some (c4 0 0 8 0 8 4 0 4)) st0_oom = UB NullDeref.
Proof. exact oom_run. Qed.
Print Assumptions C76_oom_refuted.

(** ** C77: refuted: a shift by a tenth and three tenths of a pixel makes an opaque
    white picture slightly gray and slightly transparent. *)
Theorem C77_white_refuted :
  let s := st_pm (repeat 255 16) [] [d1; d0; lit 1 10; d0; d1; lit 3 10; d0; d0; d1] in
  out_bytes (apply_matrix_3x3 2 2 (Ptr 0) 1 1 (Ptr 2) s) = Some (map Some [254; 254; 254; 254]).
Proof. exact white_run. Qed.
Print Assumptions C77_white_refuted.
