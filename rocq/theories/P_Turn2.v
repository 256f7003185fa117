From Verif Require Import Base BaseLemmas F Heap Spec Spec_Trim Spec_Morph Spec_Rel Spec_Ops Spec_Turn M_Geom M_Trim P_Geom P_Crop P_Trim P_Color P_Rel P_Turn.
Local Open Scope Z_scope.

(** Column [x] between the rows [t] and [bt], and row [y] between the columns [l] and [r], are
    of one colour *)
Definition cu (f : Z -> Z -> Z -> Z) (x t bt : Z) : Prop := forall y y' c, t <= y < bt -> t <= y' < bt -> 0 <= c < 4 -> f x y c = f x y' c.
Definition ru (f : Z -> Z -> Z -> Z) (y l r : Z) : Prop := forall x x' c, l <= x < r -> l <= x' < r -> 0 <= c < 4 -> f x y c = f x' y c.
Lemma cu_sub f x t bt t' bt' : t <= t' -> bt' <= bt -> cu f x t bt -> cu f x t' bt'.
Proof. intros A B H y y' c Hy Hy' Hc. apply H; lia. Qed.
Lemma ru_sub f y l r l' r' : l <= l' -> r' <= r -> ru f y l r -> ru f y l' r'.
Proof. intros A B H x x' c Hx Hx' Hc. apply H; lia. Qed.
(** No side of the box is of one colour *)
Definition held (f : Z -> Z -> Z -> Z) (l r t bt : Z) : Prop := ~ cu f l t bt /\ ~ cu f (r - 1) t bt /\ ~ ru f t l r /\ ~ ru f (bt - 1) l r.

Lemma two_boxes f w h l r t bt L R T B :
  0 <= l < r -> r <= w -> 0 <= t < bt -> bt <= h -> 0 <= L < R -> R <= w -> 0 <= T < B -> B <= h ->
  (forall x, 0 <= x < l \/ r <= x < w -> cu f x 0 h) ->
  (forall y, 0 <= y < T \/ B <= y < h -> ru f y 0 w) -> (forall x, 0 <= x < L \/ R <= x < w -> cu f x T B) ->
  (forall y, 0 <= y < t \/ bt <= y < h -> ru f y l r) ->
  held f l r t bt -> (1 < B - T -> held f L R T B) -> l = L /\ r = R /\ t = T /\ bt = B.
Proof.
  intros Hl Hr Ht Hb HL HR HT HB C1 R2 C2 R1 (N1 & N2 & N3 & N4) K.
  assert (T <= t). { destruct (Z_le_gt_dec T t); [auto|]. exfalso. apply N3. apply (ru_sub f t 0 w); [lia|lia|]. apply R2. lia. }
  assert (bt <= B). { destruct (Z_le_gt_dec bt B); [auto|]. exfalso. apply N4. apply (ru_sub f _ 0 w); [lia|lia|]. apply R2. lia. }
  assert (1 < bt - t). { destruct (Z_le_gt_dec (bt - t) 1); [|lia]. exfalso. apply N1. intros y y' c Hy Hy' Hc. f_equal. lia. }
  destruct (K ltac:(lia)) as (M1 & M2 & M3 & M4).
  assert (L <= l). { destruct (Z_le_gt_dec L l); [auto|]. exfalso. apply N1. apply (cu_sub f _ T B); [lia|lia|]. apply C2. lia. }
  assert (r <= R). { destruct (Z_le_gt_dec r R); [auto|]. exfalso. apply N2. apply (cu_sub f _ T B); [lia|lia|]. apply C2. lia. }
  assert (l <= L). { destruct (Z_le_gt_dec l L); [auto|]. exfalso. apply M1. apply (cu_sub f _ 0 h); [lia|lia|]. apply C1. lia. }
  assert (R <= r). { destruct (Z_le_gt_dec R r); [auto|]. exfalso. apply M2. apply (cu_sub f _ 0 h); [lia|lia|]. apply C1. lia. }
  assert (l = L) by lia. assert (r = R) by lia. subst L R.
  assert (t <= T). { destruct (Z_le_gt_dec t T); [auto|]. exfalso. apply M3. apply R1. lia. }
  assert (B <= bt). { destruct (Z_le_gt_dec B bt); [auto|]. exfalso. apply M4. apply R1. lia. }
  lia.
Qed.

Definition vals (b : buf Z) (w : Z) : Z -> Z -> Z -> Z := fun x y c => pixv b w 4 x y c.
Lemma box_cu b w h l r t bt : trim_box 0 b w h 4 l r t bt ->
  0 <= l < r /\ r <= w /\ 0 <= t < bt /\ bt <= h /\
  (forall x, 0 <= x < l \/ r <= x < w -> cu (vals b w) x 0 h) /\ (forall y, 0 <= y < t \/ bt <= y < h -> ru (vals b w) y l r).
Proof.
  intros (B1 & B2 & B3 & B4 & C1 & _ & C3 & _ & R1 & _ & R3 & _). repeat split; try lia.
  - intros x Hx. unfold cu, vals. apply (proj1 (uniform_col b w h x ltac:(lia))). destruct Hx; auto.
  - intros y Hy. unfold ru, vals. apply (proj1 (uniform_row b w l r y ltac:(lia))). destruct Hy; auto.
Qed.
(** A picture that trim leaves as it is *)
Lemma stable_held d w h l r t bt : trim_box 0 d w h 4 l r t bt -> r - l = w -> bt - t = h -> 1 < w -> held (vals d w) 0 w 0 h.
Proof.
  intros (B1 & B2 & B3 & B4 & C1 & C2 & C3 & C4 & R1 & R2 & R3 & R4) Ew Eh Hw.
  assert (l = 0) by lia. assert (r = w) by lia. assert (t = 0) by lia. assert (bt = h) by lia. subst l r t bt.
  assert (N1 : ~ cu (vals d w) 0 0 h). { intros H. destruct C2 as [E|N]; [lia|]. apply N. apply uniform_col; [lia|]. exact H. }
  assert (Hh : 1 < h). { destruct (Z_le_gt_dec h 1); [|lia]. exfalso. apply N1. intros y y' c Hy Hy' Hc. f_equal. lia. }
  split; [exact N1|]. split; [|split].
  - intros H. destruct C4 as [E|N]; [lia|]. apply N. apply uniform_col; [lia|]. exact H.
  - intros H. destruct R2 as [E|N]; [lia|]. apply N. apply uniform_row; [lia|]. exact H.
  - intros H. destruct R4 as [E|N]; [lia|]. apply N. apply uniform_row; [lia|]. exact H.
Qed.
Lemma held_box b w l r t bt d w2 h2 : is_box b w 4 l r t bt w2 h2 d -> 0 < w2 -> 0 < h2 -> held (vals d w2) 0 w2 0 h2 -> held (vals b w) l r t bt.
Proof.
  intros (Ew & Eh & _ & V) Hw Hh.
  assert (V2 : forall x y c, 0 <= x < w2 -> 0 <= y < h2 -> 0 <= c < 4 -> vals d w2 x y c = vals b w (l + x) (t + y) c).
  { intros x y c Hx Hy Hc. unfold vals, pixv. rewrite V by lia. reflexivity. }
  intros (N1 & N2 & N3 & N4). split; [|split; [|split]]; intros H; [apply N1|apply N2|apply N3|apply N4]; intros u v c Hu Hv Hc; rewrite !V2 by lia.
  - replace (l + 0) with l by lia. apply H; lia.
  - replace (l + (w2 - 1)) with (r - 1) by lia. apply H; lia.
  - replace (t + 0) with t by lia. apply H; lia.
  - replace (t + (h2 - 1)) with (bt - 1) by lia. apply H; lia.
Qed.

Definition crossx (o : turning) : bool := match o with Transversed | Left_turn => true | _ => false end.
Definition crossy (o : turning) : bool := match o with Transversed | Right_turn => true | _ => false end.

Section Quarter.
Variables (mx my : bool) (w h : Z) (f f1 : Z -> Z -> Z -> Z).
Hypothesis V : forall x y c, inside h w x y -> 0 <= c < 4 -> f1 x y c = f (fl mx w y) (fl my h x) c.
Definition lo (m : bool) (n a b : Z) : Z := if m then n - b else a.
Definition hi (m : bool) (n a b : Z) : Z := if m then n - a else b.
Lemma Vb x y c : inside w h x y -> 0 <= c < 4 -> f x y c = f1 (fl my h y) (fl mx w x) c.
Proof. intros [Hx Hy] Hc. rewrite V by (auto; unfold inside, fl; destruct mx, my; lia). f_equal; unfold fl; destruct mx, my; lia. Qed.
Lemma quarter_cu x a b : 0 <= x < h -> 0 <= a -> b <= w -> (cu f1 x a b <-> ru f (fl my h x) (lo mx w a b) (hi mx w a b)).
Proof.
  intros Hx Ha Hb. split; intros H u v c Hu Hv Hc.
  - rewrite !Vb by (auto; unfold inside, fl, lo, hi in *; destruct mx, my; lia).
    replace (fl my h (fl my h x)) with x by (unfold fl; destruct my; lia). apply H; unfold fl, lo, hi in *; destruct mx; lia.
  - rewrite !V by (auto; unfold inside; lia). apply H; unfold fl, lo, hi in *; destruct mx; lia.
Qed.
Lemma quarter_ru y a b : 0 <= y < w -> 0 <= a -> b <= h -> (ru f1 y a b <-> cu f (fl mx w y) (lo my h a b) (hi my h a b)).
Proof.
  intros Hx Ha Hb. split; intros H u v c Hu Hv Hc.
  - rewrite !Vb by (auto; unfold inside, fl, lo, hi in *; destruct mx, my; lia).
    replace (fl mx w (fl mx w y)) with y by (unfold fl; destruct mx; lia). apply H; unfold fl, lo, hi in *; destruct my; lia.
  - rewrite !V by (auto; unfold inside; lia). apply H; unfold fl, lo, hi in *; destruct my; lia.
Qed.
Lemma quarter_held l r t bt : 0 <= l < r -> r <= h -> 0 <= t < bt -> bt <= w -> held f1 l r t bt -> held f (lo mx w t bt) (hi mx w t bt) (lo my h l r) (hi my h l r).
Proof.
  intros Hl Hr Ht Hb (N1 & N2 & N3 & N4). rewrite quarter_cu in N1 by lia. rewrite quarter_cu in N2 by lia. rewrite quarter_ru in N3 by lia. rewrite quarter_ru in N4 by lia.
  split; [|split; [|split]].
  - replace (lo mx w t bt) with (if mx then fl mx w (bt - 1) else fl mx w t) by (unfold lo, fl; destruct mx; lia). destruct mx; auto.
  - replace (hi mx w t bt - 1) with (if mx then fl mx w t else fl mx w (bt - 1)) by (unfold hi, fl; destruct mx; lia). destruct mx; auto.
  - replace (lo my h l r) with (if my then fl my h (r - 1) else fl my h l) by (unfold lo, fl; destruct my; lia). destruct my; auto.
  - replace (hi my h l r - 1) with (if my then fl my h l else fl my h (r - 1)) by (unfold hi, fl; destruct my; lia). destruct my; auto.
Qed.
End Quarter.

Lemma quarter_trim o w h b b1 w1 h1 c1 w2 h2 d d1 c2 d2 : In o [Transposed; Transversed; Right_turn; Left_turn] ->
  0 < w <= 2147483647 -> 0 < h <= 2147483647 -> w * h * 4 <= 4294967296 -> image (w * h * 4) b ->
  calls (turn o) w h b b1 -> calls_sized (fun w h p => trim w h 4 p) h w b1 w1 h1 c1 ->
  calls_sized (fun w h p => trim w h 4 p) w h b w2 h2 d -> calls (turn o) w2 h2 d d1 ->
  calls_sized (fun w h p => trim w h 4 p) w1 h1 c1 w1 h1 c2 -> calls_sized (fun w h p => trim w h 4 p) w2 h2 d w2 h2 d2 -> 1 < w2 ->
  w1 = h2 /\ h1 = w2 /\ same_bytes (w2 * h2 * 4) c1 d1.
Proof.
  intros Ho Hw Hh Hs I C1 C2 C3 C4 C5 C6 H1.
  assert (D : dims_ok w h) by (unfold dims_ok, is_u32, U32, SIZE_MAX; lia).
  assert (So : tw o w h = h /\ th o w h = w) by (destruct Ho as [<-|[<-|[<-|[<-|[]]]]]; auto).
  destruct (turn_calls o w h b b1 D I C1) as [X1 V1]. destruct So as [Sw Sh]. rewrite Sw, Sh in *.
  assert (Hs' : h * w * 4 <= 4294967296) by lia.
  apply (sized_inv _ _ _ _ _ _ _ _ (fun s p Hwf Hp => trim_ok w h 4 s p b Hwf Hw Hh ltac:(lia) Hs Hp I)) in C3.
  apply (sized_inv _ _ _ _ _ _ _ _ (fun s p Hwf Hp => trim_ok h w 4 s p b1 Hwf Hh Hw ltac:(lia) Hs' Hp (proj2 X1))) in C2.
  destruct C3 as (l & r & t & bt & B & IB). destruct C2 as (l1 & r1 & t1 & bt1 & B' & IB').
  pose proof IB as (Ew & Eh & Xd & Vd). pose proof IB' as (Ew1 & Eh1 & Xc & Vc).
  destruct (box_cu _ _ _ _ _ _ _ B) as (A1 & A2 & A3 & A4 & CU & RU). destruct (box_cu _ _ _ _ _ _ _ B') as (A1' & A2' & A3' & A4' & CU' & RU').
  apply (sized_inv _ _ _ _ _ _ _ _ (fun s p Hwf Hp => trim_ok w2 h2 4 s p d Hwf ltac:(lia) ltac:(lia) ltac:(lia) ltac:(nia) Hp (proj2 Xd))) in C6.
  apply (sized_inv _ _ _ _ _ _ _ _ (fun s p Hwf Hp => trim_ok w1 h1 4 s p c1 Hwf ltac:(lia) ltac:(lia) ltac:(lia) ltac:(nia) Hp (proj2 Xc))) in C5.
  destruct C6 as (l6 & r6 & t6 & b6 & B6 & E6 & E6' & _). destruct C5 as (l5 & r5 & t5 & b5 & B5 & E5 & E5' & _).
  pose proof (held_box _ _ _ _ _ _ _ _ _ IB ltac:(lia) ltac:(lia) (stable_held _ _ _ _ _ _ _ B6 ltac:(lia) ltac:(lia) H1)) as N.
  assert (F : forall w h x y, from_x o w h x y = fl (crossx o) w y /\ from_y o w h x y = fl (crossy o) h x)
    by (intros; destruct Ho as [<-|[<-|[<-|[<-|[]]]]]; cbn; auto).
  assert (VV : forall x y c, inside h w x y -> 0 <= c < 4 -> vals b1 h x y c = vals b w (fl (crossx o) w y) (fl (crossy o) h x) c).
  { intros u v k IN Hk. unfold vals, pixv. rewrite V1 by auto. destruct (F w h u v) as [-> ->]. reflexivity. }
  assert (Q : l = lo (crossx o) w t1 bt1 /\ r = hi (crossx o) w t1 bt1 /\ t = lo (crossy o) h l1 r1 /\ bt = hi (crossy o) h l1 r1).
  { apply (two_boxes (vals b w) w h); auto; try (unfold lo, hi; destruct (crossx o), (crossy o); lia).
    - intros y Hy. specialize (CU' (fl (crossy o) h y)). rewrite (quarter_cu (crossx o) (crossy o) w h _ _ VV) in CU' by (unfold fl; unfold lo, hi in Hy; destruct (crossy o); lia).
      replace (fl (crossy o) h (fl (crossy o) h y)) with y in CU' by (unfold fl; destruct (crossy o); lia).
      replace (lo (crossx o) w 0 w) with 0 in CU' by (unfold lo; destruct (crossx o); lia). replace (hi (crossx o) w 0 w) with w in CU' by (unfold hi; destruct (crossx o); lia).
      apply CU'. unfold fl. unfold lo, hi in Hy. destruct (crossy o); lia.
    - intros x Hx. specialize (RU' (fl (crossx o) w x)). rewrite (quarter_ru (crossx o) (crossy o) w h _ _ VV) in RU' by (unfold fl; unfold lo, hi in Hx; destruct (crossx o); lia).
      replace (fl (crossx o) w (fl (crossx o) w x)) with x in RU' by (unfold fl; destruct (crossx o); lia).
      apply RU'. unfold fl. unfold lo, hi in Hx. destruct (crossx o); lia.
    - intros Hgt. apply (quarter_held (crossx o) (crossy o) w h _ _ VV); auto.
      apply (held_box _ _ _ _ _ _ _ _ _ IB'); [lia|lia|]. apply (stable_held _ _ _ _ _ _ _ B5); [lia|lia|]. unfold lo, hi in Hgt. destruct (crossy o); lia. }
  destruct Q as (Q1 & Q2 & Q3 & Q4).
  assert (E : w1 = h2 /\ h1 = w2) by (unfold lo, hi in *; destruct (crossx o), (crossy o); lia). destruct E as [-> ->]. split; [reflexivity|]. split; [reflexivity|].
  assert (Dd : dims_ok w2 h2). { unfold dims_ok, is_u32, U32, SIZE_MAX in *. repeat split; try lia; nia. }
  destruct (turn_calls o w2 h2 d d1 Dd (proj2 Xd) C4) as [X4 V4].
  assert (So : tw o w2 h2 = h2 /\ th o w2 h2 = w2) by (destruct Ho as [<-|[<-|[<-|[<-|[]]]]]; auto). destruct So as [Sw2 Sh2]. rewrite Sw2, Sh2 in *.
  replace (w2 * h2 * 4) with (h2 * w2 * 4) by lia.
  apply same_bytes_pix; [lia|lia|]. intros u v k Hu Hv Hk. rewrite V4 by (auto; split; auto). rewrite Vc by auto.
  destruct (F w2 h2 u v) as [-> ->]. rewrite Vd by (auto; unfold fl; destruct (crossx o), (crossy o); lia).
  rewrite V1 by (auto; unfold inside; lia). destruct (F w h (l1 + u) (t1 + v)) as [-> ->].
  f_equal; unfold fl, lo, hi in *; destruct (crossx o), (crossy o); lia.
Qed.
