(** * P_TurnDraw: drawing on turned pictures *)
From Coq Require Import Reals.
From Verif Require Import Base BaseLemmas F FLemmas Heap Spec Spec_Rel Spec_Ops Spec_Draw Spec_Morph
  M_Geom M_Color M_Draw P_Geom P_Color3 P_Draw P_Draw2 P_Rel P_TileDraw P_Swap.
Local Open Scope Z_scope.

(** A shape with the symmetries of [o] covers the same pixels of the turned picture. *)
Lemma shape_turn o w h (P : Z -> Z -> Prop) cx cy cx' cy' u v :
  (forall dx dy, P dx dy -> P (- dx) dy /\ P dx (- dy)) -> (swaps o = true -> forall dx dy, P dx dy -> P dy dx) ->
  cx = from_x o w h cx' cy' -> cy = from_y o w h cx' cy' ->
  P (u - cx') (v - cy') <-> P (from_x o w h u v - cx) (from_y o w h u v - cy).
Proof.
  intros S W -> ->.
  assert (A : forall dx dy, P (- dx) dy <-> P dx dy) by (intros dx dy; split; intros H; [rewrite <- (Z.opp_involutive dx)|]; apply (S _ _ H)).
  assert (B : forall dx dy, P dx (- dy) <-> P dx dy) by (intros dx dy; split; intros H; [rewrite <- (Z.opp_involutive dy)|]; apply (S _ _ H)).
  assert (C : swaps o = true -> forall dx dy, P dy dx <-> P dx dy) by (intros E dx dy; split; apply W; auto).
  destruct o; cbn in C |- *.
  - replace (w - 1 - u - (w - 1 - cx')) with (- (u - cx')) by ring. symmetry. apply A.
  - replace (h - 1 - v - (h - 1 - cy')) with (- (v - cy')) by ring. symmetry. apply B.
  - replace (w - 1 - u - (w - 1 - cx')) with (- (u - cx')) by ring. replace (h - 1 - v - (h - 1 - cy')) with (- (v - cy')) by ring.
    rewrite A, B. reflexivity.
  - apply C; reflexivity.
  - replace (w - 1 - v - (w - 1 - cy')) with (- (v - cy')) by ring. replace (h - 1 - u - (h - 1 - cx')) with (- (u - cx')) by ring.
    rewrite A, B. apply C; reflexivity.
  - replace (h - 1 - u - (h - 1 - cx')) with (- (u - cx')) by ring. rewrite B. apply C; reflexivity.
  - replace (w - 1 - v - (w - 1 - cy')) with (- (v - cy')) by ring. rewrite A. apply C; reflexivity.
Qed.

Section Turn.
Variables (f : Z -> Z -> Z -> option cstr -> f64 -> f64 -> f64 -> ptr -> M unit) (F : Z -> Z -> Z -> Prop).
Hypothesis EF : forall w h ch hex radius cx cy s p b cr cg cb,
  draw_ok w h ch radius cx cy -> holds s p b -> w * h * ch <= blen b -> parse_hex_color hex = Ok (cr, cg, cb) ->
  exists gv, draw_luma cr cg cb = Ok gv /\ rewrites s p (f w h ch (Some hex) radius cx cy p s)
    (painted w h ch (colf ch cr cg cb gv) (fun x y => F (int_part radius) (x - int_part cx) (y - int_part cy)) b).
Lemma draw_turn o w h hex r cx cy cx' cy' s p b s1 b1 c1 d t q t1 d1 :
  (forall dx dy, F (int_part r) dx dy -> F (int_part r) (- dx) dy /\ F (int_part r) dx (- dy)) ->
  (swaps o = true -> forall dx dy, F (int_part r) dx dy -> F (int_part r) dy dx) ->
  draw_ok w h 4 r cx cy -> draw_ok (tw o w h) (th o w h) 4 r cx' cy' ->
  int_part cx = from_x o w h (int_part cx') (int_part cy') -> int_part cy = from_y o w h (int_part cx') (int_part cy') ->
  w * h * 4 <= SIZE_MAX -> image (w * h * 4) b ->
  holds s p b -> f w h 4 (Some hex) r cx cy p s = Ok (tt, s1) -> holds s1 p b1 -> calls (turn o) w h b1 c1 ->
  calls (turn o) w h b d -> holds t q d -> f (tw o w h) (th o w h) 4 (Some hex) r cx' cy' q t = Ok (tt, t1) -> holds t1 q d1 ->
  same_bytes (w * h * 4) c1 d1.
Proof.
  intros Sm Sw D D' Ex Ey HS I Hp R1 P1 C1 C2 Hq R2 P2.
  destruct (hex_pure hex) as [[cr cg] cb] eqn:EH.
  assert (Hx : parse_hex_color hex = Ok (cr, cg, cb)) by (rewrite parse_hex_pure, EH; reflexivity).
  assert (HL : w * h * 4 <= blen b) by apply I.
  destruct (EF w h 4 hex r cx cy s p b cr cg cb D Hp HL Hx) as (gv & Egv & _).
  pose proof (draw_run f w h 4 hex r cx cy s p b cr cg cb s1 b1 F gv Egv (EF _ _ _ _ _ _ _ _ _ _ _ _ _ D Hp HL Hx) R1 P1) as Q1.
  pose proof D as (Hw & Hh & _). pose proof D' as (Hw' & Hh' & _).
  assert (DD : dims_ok w h) by (unfold dims_ok, is_u32, U32; repeat split; lia).
  assert (I1 : image (w * h * 4) b1) by (eapply painted_image; [| | |exact Hx|exact Egv|exact Q1|exact I]; lia).
  destruct (turn_calls o w h b1 c1 DD I1 C1) as [X1 V1]. destruct (turn_calls o w h b d DD I C2) as [X2 V2].
  assert (HL2 : tw o w h * th o w h * 4 <= blen d) by (destruct X2 as [X2 _]; lia).
  pose proof (draw_run f _ _ 4 hex r cx' cy' t q d cr cg cb t1 d1 F gv Egv (EF _ _ _ _ _ _ _ _ _ _ _ _ _ D' Hq HL2 Hx) R2 P2) as Q2.
  destruct Q1 as (_ & A1 & _). destruct Q2 as (_ & A2 & _).
  rewrite <- (tw_th o w h). apply same_bytes_pix; [lia|lia|]. intros u v k Hu Hv Hk.
  assert (IN : inside (tw o w h) (th o w h) u v) by (split; auto). rewrite V1 by auto.
  destruct (A1 _ _ k (from_inside o w h u v IN) Hk) as [S1 N1]. destruct (A2 u v k IN Hk) as [S2 N2].
  pose proof (shape_turn o w h (F (int_part r)) _ _ _ _ u v Sm Sw Ex Ey) as E. cbv beta in *.
  destruct (Classical_Prop.classic (F (int_part r) (u - int_part cx') (v - int_part cy'))) as [S|S].
  - rewrite S1 by (apply E; exact S). rewrite S2 by exact S. reflexivity.
  - rewrite N1 by (rewrite <- E; exact S). rewrite N2 by exact S. apply V2; auto.
Qed.
End Turn.

Lemma circle_turn o w h hex r cx cy cx' cy' s p b s1 b1 c1 d t q t1 d1 :
  draw_ok w h 4 r cx cy -> draw_ok (tw o w h) (th o w h) 4 r cx' cy' ->
  int_part cx = from_x o w h (int_part cx') (int_part cy') -> int_part cy = from_y o w h (int_part cx') (int_part cy') ->
  w * h * 4 <= SIZE_MAX -> image (w * h * 4) b ->
  holds s p b -> draw_circle w h 4 (Some hex) r cx cy p s = Ok (tt, s1) -> holds s1 p b1 -> calls (turn o) w h b1 c1 ->
  calls (turn o) w h b d -> holds t q d -> draw_circle (tw o w h) (th o w h) 4 (Some hex) r cx' cy' q t = Ok (tt, t1) -> holds t1 q d1 ->
  same_bytes (w * h * 4) c1 d1.
Proof. apply (draw_turn draw_circle ring circle_exact); intros; now apply ring_sym. Qed.

Lemma disk_turn o w h hex r cx cy cx' cy' s p b s1 b1 c1 d t q t1 d1 : (swaps o = true -> 1 <= int_part r) ->
  draw_ok w h 4 r cx cy -> draw_ok (tw o w h) (th o w h) 4 r cx' cy' ->
  int_part cx = from_x o w h (int_part cx') (int_part cy') -> int_part cy = from_y o w h (int_part cx') (int_part cy') ->
  w * h * 4 <= SIZE_MAX -> image (w * h * 4) b ->
  holds s p b -> draw_disk w h 4 (Some hex) r cx cy p s = Ok (tt, s1) -> holds s1 p b1 -> calls (turn o) w h b1 c1 ->
  calls (turn o) w h b d -> holds t q d -> draw_disk (tw o w h) (th o w h) 4 (Some hex) r cx' cy' q t = Ok (tt, t1) -> holds t1 q d1 ->
  same_bytes (w * h * 4) c1 d1.
Proof.
  intros Hr. apply (draw_turn draw_disk filled disk_exact); intros; [now apply filled_sym|apply filled_swap; auto].
Qed.
