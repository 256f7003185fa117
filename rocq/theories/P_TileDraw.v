(** * P_TileDraw: drawing on a part of a picture *)
From Coq Require Import Reals.
From Verif Require Import Base BaseLemmas F FLemmas Heap Spec Spec_Rel Spec_Ops Spec_Draw Spec_Morph
  M_Geom M_Color M_Draw P_Geom P_Color3 P_Crop P_Draw P_Draw2 P_Rel.
Local Open Scope Z_scope.

(** The bytes of a drawn picture are bytes. *)
Lemma painted_image w h ch hex cr cg cb gv P b b' : 0 < w -> 0 < h -> 0 < ch ->
  parse_hex_color hex = Ok (cr, cg, cb) -> draw_luma cr cg cb = Ok gv ->
  painted w h ch (colf ch cr cg cb gv) P b b' -> image (w * h * ch) b -> image (w * h * ch) b'.
Proof.
  intros Hw Hh Hc Hhex Eg (L & A & O) [IL IB].
  assert (Bc : byte cr /\ byte cg /\ byte cb). { apply (parse_hex_bytes hex). rewrite parse_hex_pure in Hhex. now injection Hhex. }
  destruct Bc as (Br & Bg & Bb). destruct (draw_luma_ok cr cg cb Br Bg Bb) as (gv' & Eg' & Sg).
  rewrite Eg in Eg'. injection Eg' as <-. destruct Sg as [Bv _].
  split; [lia|]. intros i Hi. destruct (px_decomp w h ch i) as (x & y & k & Hx & Hy & Hk & Ei); auto.
  destruct (A x y k (conj Hx Hy) Hk) as [PA PB]. unfold pix in PA, PB. rewrite <- Ei in PA, PB.
  destruct (Classical_Prop.classic (P x y)) as [S|S].
  - exists (colf ch cr cg cb gv k). split; [auto|]. unfold colf.
    repeat match goal with |- context [if ?c then _ else _] => destruct c end; auto; unfold byte; lia.
  - rewrite PB by auto. apply IB. exact Hi.
Qed.

Lemma draw_crop f w h ch hex r cx cy x y cw chh cx' cy' s p b s1 b1 c1 d t q t1 d1 :
  In f drawings -> draw_ok w h ch r cx cy -> draw_ok cw chh ch r cx' cy' ->
  int_part cx' = int_part cx - x -> int_part cy' = int_part cy - y ->
  0 <= x -> 0 <= y -> x + cw <= w -> y + chh <= h -> w * h * ch <= SIZE_MAX -> image (w * h * ch) b ->
  holds s p b -> f w h ch (Some hex) r cx cy p s = Ok (tt, s1) -> holds s1 p b1 ->
  calls (fun w h p => crop w h ch p x y cw chh) w h b1 c1 ->
  calls (fun w h p => crop w h ch p x y cw chh) w h b d ->
  holds t q d -> f cw chh ch (Some hex) r cx' cy' q t = Ok (tt, t1) -> holds t1 q d1 ->
  same_bytes (cw * chh * ch) c1 d1.
Proof.
  intros If D D' Ex Ey Hx0 Hy0 Hxw Hyh HS I Hp R1 P1 C1 C2 Hq R2 P2.
  destruct (draw_exact f If) as (F & EF). destruct (hex_pure hex) as [[cr cg] cb] eqn:EH.
  assert (Hx : parse_hex_color hex = Ok (cr, cg, cb)) by (rewrite parse_hex_pure, EH; reflexivity).
  assert (HL : w * h * ch <= blen b) by apply I.
  destruct (EF w h ch hex r cx cy s p b cr cg cb D Hp HL Hx) as (gv & Egv & _).
  pose proof (draw_run f w h ch hex r cx cy s p b cr cg cb s1 b1 F gv Egv (EF _ _ _ _ _ _ _ _ _ _ _ _ _ D Hp HL Hx) R1 P1) as Q1.
  pose proof D as (Hw & Hh & Hch & _). pose proof D' as (Hcw & Hchh & _).
  assert (Hc0 : 0 < ch) by lia.
  assert (I1 : image (w * h * ch) b1) by (eapply painted_image; [| | |exact Hx|exact Egv|exact Q1|exact I]; lia).
  apply crop_calls_inv in C1; auto; try (unfold is_u32; lia).
  apply crop_calls_inv in C2; auto; try (unfold is_u32; lia).
  destruct C1 as (_ & _ & _ & _ & _ & X1 & G1). destruct C2 as (_ & _ & _ & _ & _ & X2 & G2).
  assert (HL2 : cw * chh * ch <= blen d) by (destruct X2 as [X2 _]; lia).
  pose proof (draw_run f cw chh ch hex r cx' cy' t q d cr cg cb t1 d1 F gv Egv (EF _ _ _ _ _ _ _ _ _ _ _ _ _ D' Hq HL2 Hx) R2 P2) as Q2.
  destruct Q1 as (_ & A1 & _). destruct Q2 as (_ & A2 & _).
  intros i Hi. destruct (px_decomp cw chh ch i) as (u & v & k & Hu & Hv & Hk & ->); try lia.
  change (pix d1 cw ch u v k = pix c1 cw ch u v k). rewrite G1 by auto.
  assert (IN : inside w h (x + u) (y + v)) by (split; lia). assert (IN' : inside cw chh u v) by (split; lia).
  destruct (A1 (x + u) (y + v) k IN Hk) as [S1 N1]. destruct (A2 u v k IN' Hk) as [S2 N2].
  replace (x + u - int_part cx) with (u - int_part cx') in S1, N1 by lia.
  replace (y + v - int_part cy) with (v - int_part cy') in S1, N1 by lia.
  destruct (Classical_Prop.classic (F (int_part r) (u - int_part cx') (v - int_part cy'))) as [S|S].
  - rewrite S1, S2 by exact S. reflexivity.
  - rewrite N1, N2 by exact S. apply G2; auto.
Qed.
