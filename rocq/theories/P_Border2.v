(** * P_Border2: borders around borders *)
From Verif Require Import Base BaseLemmas F Heap Spec Spec_Morph Spec_Trim Spec_Draw Spec_Ops M_Color M_Draw P_Geom P_Color3 P_Draw P_Border.
Local Open Scope Z_scope.

Lemma borders_exact w h ch hex bw b w1 h1 b1 cr cg cb gv :
  0 < w -> 0 < h -> (ch = 1 \/ ch = 3 \/ ch = 4) -> 0 < bw -> (w + 2 * bw) * (h + 2 * bw) * ch <= 4294967296 ->
  image (w * h * ch) b -> parse_hex_color hex = Ok (cr, cg, cb) -> draw_luma cr cg cb = Ok gv -> borders hex ch bw w h b w1 h1 b1 ->
  bordered w h ch bw (colf ch cr cg cb gv) b w1 h1 b1.
Proof.
  intros Hw Hh Hch Hbw Hs Hi Hx Eg (s & p & q & s' & Hwf & Hp & E & d & -> & Hd).
  destruct (add_border_exact w h ch hex bw s p b 0 0 cr cg cb Hwf Hw Hh Hch Hbw Hs Hp Hi Hx) as (gv' & Eg' & _ & q' & w' & h' & s1 & E' & _ & K).
  rewrite Eg in Eg'. injection Eg' as <-.
  rewrite E in E'. injection E' as <- <- <- <-. destruct K as (_ & (b' & Hb & K) & _). rewrite Hd in Hb. injection Hb as <-. exact K.
Qed.

Lemma borders_add w h ch hex m n b w1 h1 b1 w2 h2 b2 w3 h3 b3 :
  0 < w -> 0 < h -> (ch = 1 \/ ch = 3 \/ ch = 4) -> 0 < m -> 0 < n -> (w + 2 * (m + n)) * (h + 2 * (m + n)) * ch <= 4294967296 ->
  image (w * h * ch) b -> borders hex ch m w h b w1 h1 b1 -> borders hex ch n w1 h1 b1 w2 h2 b2 -> borders hex ch (m + n) w h b w3 h3 b3 ->
  w2 = w3 /\ h2 = h3 /\ same_bytes (w3 * h3 * ch) b2 b3.
Proof.
  intros Hw Hh Hch Hm Hn HS I B1 B2 B3. destruct (hex_pure hex) as [[cr cg] cb] eqn:EH.
  assert (Hx : parse_hex_color hex = Ok (cr, cg, cb)) by (rewrite parse_hex_pure, EH; reflexivity).
  destruct (parse_hex_bytes hex cr cg cb EH) as (Br & Bg & Bb). destruct (draw_luma_ok cr cg cb Br Bg Bb) as (gv & Eg & _).
  assert (S1 : (w + 2 * m) * (h + 2 * m) * ch <= 4294967296).
  { eapply Z.le_trans; [|exact HS]. apply Z.mul_le_mono_nonneg_r; [lia|]. apply Z.mul_le_mono_nonneg; lia. }
  apply (borders_exact _ _ _ _ _ _ _ _ _ cr cg cb gv) in B1; auto. destruct B1 as (-> & -> & X1 & V1).
  apply (borders_exact _ _ _ _ _ _ _ _ _ cr cg cb gv) in B2; auto; try lia; [|apply X1].
  destruct B2 as (-> & -> & X2 & V2).
  apply (borders_exact _ _ _ _ _ _ _ _ _ cr cg cb gv) in B3; auto; try lia. destruct B3 as (-> & -> & X3 & V3).
  split; [ring|]. split; [ring|]. intros i Hi.
  destruct (px_decomp (w + 2 * (m + n)) (h + 2 * (m + n)) ch i) as (x & y & c & Px & Py & Pc & ->); try lia.
  change (pix b3 (w + 2 * (m + n)) ch x y c = pix b2 (w + 2 * (m + n)) ch x y c). rewrite V3 by (auto; split; lia).
  replace (w + 2 * (m + n)) with (w + 2 * m + 2 * n) by ring. rewrite V2 by (auto; split; lia).
  destruct ((n <=? x) && (x <? n + (w + 2 * m)) && (n <=? y) && (y <? n + (h + 2 * m))) eqn:E.
  - rewrite V1 by (auto; split; lia).
    replace ((m <=? x - n) && (x - n <? m + w) && (m <=? y - n) && (y - n <? m + h)) with
      ((m + n <=? x) && (x <? m + n + w) && (m + n <=? y) && (y <? m + n + h)) by lia.
    match goal with |- context [if ?c then _ else _] => destruct c end; [|reflexivity]. f_equal; lia.
  - replace ((m + n <=? x) && (x <? m + n + w) && (m + n <=? y) && (y <? m + n + h)) with false by lia. reflexivity.
Qed.
