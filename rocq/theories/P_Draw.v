(** * Proofs about the drawing functions *)
From Verif Require Import Base BaseLemmas F Heap HeapLemmas Spec FLemmas PaintLemmas Spec_Morph Spec_Draw
  M_Color M_Draw P_Color P_Color3.
From Coq Require Import Reals Lra.
From Flocq Require Import Core.Zaux Core.Raux Core.Defs.
Open Scope Z_scope.

(** ** The luminance of a colour *)

Lemma lit_near p q v : 0 < p < 1000 -> q = 1000 -> v = (IZR p / 1000)%R ->
  exists a, isd (lit p q) a /\ (v - / 1000000000000 <= a <= v + / 1000000000000)%R /\ (0 <= a)%R.
Proof.
  intros Hp -> ->. exists (rd (IZR p / 1000)).
  assert (0 <= IZR p <= 1000)%R by (split; apply IZR_le; lia).
  assert (0 <= IZR p / 1000 <= 1)%R by lra. split; [|split].
  - apply ddiv_R; [apply d_of_Z_exact; lia|apply (d_of_Z_exact 1000); lia|lra|].
    apply (abs_big _ 1); [|lia]. apply Rabs_le; lra.
  - pose proof (rd_near (IZR p / 1000) 0 1 ltac:(lia) eq_refl) as N. simpl (bpow radix2 (-53)) in N.
    assert (Rabs (IZR p / 1000) <= 1)%R by (apply Rabs_le; lra). specialize (N H1). lra.
  - apply (rd_ge_Z _ 0); [lra|lia].
Qed.

Lemma mul_near x a v n : isd x a -> (v - / 1000000000000 <= a <= v + / 1000000000000)%R -> (0 <= a)%R ->
  (0 <= v <= 1)%R -> byte n ->
  exists r, isd (dmul x (d_of_Z n)) r /\ (v * IZR n - / 1000000000 <= r <= v * IZR n + / 1000000000)%R /\ (0 <= r)%R.
Proof.
  unfold byte; intros Hx Ha Ha0 Hv Hn. exists (rd (a * IZR n)).
  assert (0 <= IZR n <= 255)%R by (split; apply IZR_le; lia).
  assert (Hp : (0 <= a * IZR n <= 512)%R) by nra. split; [|split].
  - apply dmul_R; [auto|apply d_of_Z_exact; lia|]. apply (abs_big _ 512); [|lia]. apply Rabs_le; lra.
  - pose proof (rd_near (a * IZR n) 9 512 ltac:(lia) eq_refl) as N. simpl (bpow radix2 (-53)) in N.
    assert (Rabs (a * IZR n) <= 512)%R by (apply Rabs_le; lra). specialize (N H0).
    assert (v * IZR n - 255 * / 1000000000000 <= a * IZR n <= v * IZR n + 255 * / 1000000000000)%R by nra. lra.
  - apply (rd_ge_Z _ 0); [lra|lia].
Qed.

Lemma add_near x y a b v u e : isd x a -> isd y b -> (v - e <= a <= v + e)%R -> (u - / 1000000000 <= b <= u + / 1000000000)%R ->
  (0 <= a)%R -> (0 <= b)%R -> (0 <= v <= 255)%R -> (0 <= u <= 255)%R -> (0 <= e <= / 1000000)%R ->
  exists r, isd (dadd x y) r /\ (v + u - (e + / 500000000) <= r <= v + u + (e + / 500000000))%R /\ (0 <= r)%R.
Proof.
  intros Hx Hy Ha Hb Ha0 Hb0 Hv Hu He. exists (rd (a + b)). split; [|split].
  - apply dadd_R; auto. apply (abs_big _ 512); [|lia]. apply Rabs_le; lra.
  - pose proof (rd_near (a + b) 10 1024 ltac:(lia) eq_refl) as N. simpl (bpow radix2 (-53)) in N.
    assert (Rabs (a + b) <= 1024)%R by (apply Rabs_le; lra). specialize (N H). lra.
  - apply (rd_ge_Z _ 0); [lra|lia].
Qed.

Lemma draw_luma_ok r g b : byte r -> byte g -> byte b -> exists v, draw_luma r g b = Ok v /\ drawn_gray r g b v.
Proof.
  intros Hr Hg Hb. unfold draw_luma.
  destruct (lit_near 299 1000 _ ltac:(lia) eq_refl eq_refl) as (a1 & I1 & N1 & P1).
  destruct (lit_near 587 1000 _ ltac:(lia) eq_refl eq_refl) as (a2 & I2 & N2 & P2).
  destruct (lit_near 114 1000 _ ltac:(lia) eq_refl eq_refl) as (a3 & I3 & N3 & P3).
  destruct (mul_near _ _ _ r I1 N1 P1 ltac:(lra) Hr) as (m1 & J1 & M1 & Q1).
  destruct (mul_near _ _ _ g I2 N2 P2 ltac:(lra) Hg) as (m2 & J2 & M2 & Q2).
  destruct (mul_near _ _ _ b I3 N3 P3 ltac:(lra) Hb) as (m3 & J3 & M3 & Q3).
  unfold byte in *.
  assert (0 <= IZR r <= 255)%R by (split; apply IZR_le; lia).
  assert (0 <= IZR g <= 255)%R by (split; apply IZR_le; lia).
  assert (0 <= IZR b <= 255)%R by (split; apply IZR_le; lia).
  destruct (add_near _ _ _ _ _ _ _ J1 J2 M1 M2 Q1 Q2 ltac:(lra) ltac:(lra) ltac:(lra)) as (s1 & K1 & S1 & T1).
  destruct (add_near _ _ _ _ _ _ _ K1 J3 S1 M3 T1 Q3 ltac:(lra) ltac:(lra) ltac:(lra)) as (s2 & K2 & S2 & T2).
  set (n := 299 * r + 587 * g + 114 * b) in *.
  assert (En : IZR n = (299 * IZR r + 587 * IZR g + 114 * IZR b)%R).
  { unfold n. now rewrite !plus_IZR, !mult_IZR. }
  assert (S3 : (IZR n / 1000 - / 100000000 <= s2 <= IZR n / 1000 + / 100000000)%R) by (rewrite En; lra).
  destruct (to_u8_R _ s2 K2 ltac:(split; [lra|rewrite En in S3; lra])) as [-> B].
  eexists; split; [reflexivity|]. unfold drawn_gray. fold n. split; [unfold byte; lia|].
  rewrite Ztrunc_floor by auto.
  pose proof (Z_div_mod_eq_full n 1000) as D. pose proof (Z.mod_pos_bound n 1000 ltac:(lia)) as Bm.
  set (q := n / 1000) in *. set (m := n mod 1000) in *.
  assert (Eq : (IZR n = 1000 * IZR q + IZR m)%R) by (rewrite D, plus_IZR, mult_IZR; lra).
  assert (Bm2 : (IZR m <= 999)%R) by (apply IZR_le; lia).
  destruct (Z.eq_dec m 0) as [E0|E0].
  - rewrite E0 in Eq. destruct (Rle_lt_dec (IZR q) s2) as [C|C].
    + left. apply Zfloor_imp. rewrite plus_IZR. lra.
    + right. split; auto. apply Zfloor_imp. replace (q - 1 + 1) with q by ring. rewrite minus_IZR. lra.
  - left. assert (1 <= IZR m)%R by (apply IZR_le; lia). apply Zfloor_imp. rewrite plus_IZR. lra.
Qed.

(** ** Bresenham's state sequence *)

Definition bstep (s : Z * Z * Z) : Z * Z * Z :=
  let '(x, y, d) := s in
  if 0 <? d then (x + 1, y - 1, d + 4 * ((x + 1) - (y - 1)) + 10) else (x + 1, y, d + 4 * (x + 1) + 6).
Fixpoint bst (r : Z) (n : nat) : Z * Z * Z :=
  match n with O => (0, r, 3 - 2 * r) | S m => bstep (bst r m) end.
Definition bx r n := fst (fst (bst r n)).
Definition by_ r n := snd (fst (bst r n)).
Definition bd r n := snd (bst r n).

Lemma bx_n r n : bx r n = Z.of_nat n.
Proof.
  unfold bx. induction n; [reflexivity|]. simpl bst. destruct (bst r n) as [[x y] d]. unfold bstep. simpl in IHn.
  destruct (0 <? d); simpl; lia.
Qed.

(** The loop is still running before step [n]. *)
Definition running r n := forall m, (m < n)%nat -> bx r m <= by_ r m.

Definition slack (k : Z) : Z := if 2 <=? k then 6 else if k =? 1 then 8 else if k =? 0 then 12 else if k =? -1 then 18 else 26.

Lemma slack_le k : slack k <= 26.
Proof. unfold slack. destruct (2 <=? k), (k =? 1), (k =? 0), (k =? -1); lia. Qed.

Definition binv (r x y d : Z) : Prop :=
  d = 2*x*x + 8*x + 2*y*y - 6*y + 4*r - 2*r*r + 3 /\ 0 <= x /\ y <= r /\ -2 <= y - x /\
  r*r - 3*r <= x*x + y*y <= r*r + r + 1 + (if y <? x then 2 else 0) /\ - (4*r) <= d /\ d <= 4*x + slack (y - x) /\ x <= r + 1.

Lemma binv_step r x y d : 0 <= r -> binv r x y d -> x <= y ->
  let '(x', y', d') := bstep (x, y, d) in binv r x' y' d'.
Proof.
  unfold binv, bstep. intros Hr (Ed & Hx & Hy & Hyx & (Hl & Hu) & Hd & Hd2 & Hxr) Hc.
  replace (y <? x) with false in Hu by lia.
  destruct (Z.ltb_spec 0 d) as [C|C].
  - split; [subst d; ring|]. do 3 (split; [lia|]).
    assert (E : (x + 1) * (x + 1) + (y - 1) * (y - 1) = x * x + y * y + 2 * (x - y + 1)) by ring.
    split; [|split; [lia|split; [|lia]]].
    + rewrite E. split; [lia|]. destruct (Z.ltb_spec (y - 1) (x + 1)); lia.
    + unfold slack in *. destruct (Z.leb_spec 2 (y - x)), (Z.eqb_spec (y - x) 1), (Z.eqb_spec (y - x) 0), (Z.eqb_spec (y - x) (-1));
      destruct (Z.leb_spec 2 (y - 1 - (x + 1))), (Z.eqb_spec (y - 1 - (x + 1)) 1), (Z.eqb_spec (y - 1 - (x + 1)) 0), (Z.eqb_spec (y - 1 - (x + 1)) (-1)); lia.
  - split; [subst d; ring|]. do 3 (split; [lia|]).
    assert (E : (x + 1) * (x + 1) + y * y = x * x + y * y + 2 * x + 1) by ring.
    split; [|split; [lia|split; [|lia]]].
    + rewrite E. split; [lia|]. destruct (Z.ltb_spec y (x + 1)); lia.
    + unfold slack in *. destruct (Z.leb_spec 2 (y - (x + 1))), (Z.eqb_spec (y - (x + 1)) 1), (Z.eqb_spec (y - (x + 1)) 0), (Z.eqb_spec (y - (x + 1)) (-1)); lia.
Qed.

Lemma bst_binv r n : 0 <= r -> running r n -> binv r (bx r n) (by_ r n) (bd r n).
Proof.
  intros Hr. induction n; intros Hn.
  - change (bx r 0) with 0. change (by_ r 0) with r. change (bd r 0) with (3 - 2 * r). unfold binv. split; [ring|].
    assert (slack (r - 0) >= 6). { unfold slack. destruct (2 <=? r - 0), (r - 0 =? 1), (r - 0 =? 0), (r - 0 =? -1); lia. }
    destruct (Z.ltb_spec r 0); repeat split; nia.
  - assert (I : binv r (bx r n) (by_ r n) (bd r n)). { apply IHn. intros m Hm; apply Hn; lia. }
    pose proof (Hn n ltac:(lia)) as Hc. unfold bx, by_, bd in *. simpl bst. destruct (bst r n) as [[x y] d]. simpl in I, Hc.
    pose proof (binv_step r x y d Hr I Hc) as S. destruct (bstep (x, y, d)) as [[x' y'] d']. exact S.
Qed.

Lemma binv_x r x y d : 0 <= r -> binv r x y d -> 4 * x <= 3 * r + 12.
Proof.
  intros Hr (Ed & Hx & Hy & Hyx & (Hl & Hu) & _). destruct (Z.le_gt_cases (4 * x) (3 * r + 12)); auto.
  assert (B : x * x + y * y <= r * r + r + 3) by (destruct (y <? x); lia).
  exfalso. nia.
Qed.

(** The loop stops. *)
Lemma bst_stops r : 0 <= r -> exists n, (n <= Z.to_nat (r + 1))%nat /\ running r n /\ by_ r n < bx r n.
Proof.
  intros Hr.
  assert (H : forall k, running r k \/ exists n, (n <= k)%nat /\ running r n /\ by_ r n < bx r n).
  { induction k as [|k [IH|(n & Hn & IH)]].
    - left. intros m Hm; lia.
    - destruct (Z_le_gt_dec (bx r k) (by_ r k)) as [C|C].
      + left. intros m Hm. destruct (Nat.eq_dec m k) as [->|]; auto. apply IH; lia.
      + right. exists k. split; [lia|]. split; [auto|lia].
    - right. exists n. split; [lia|auto]. }
  destruct (H (Z.to_nat (r + 1))) as [R|]; auto.
  pose proof (bst_binv r _ Hr R) as (_ & _ & Hy & _). exists (Z.to_nat (r + 1)).
  split; [lia|]. split; auto. rewrite bx_n. lia.
Qed.

(** ** Painting *)

Lemma running_le r n N : running r N -> by_ r N < bx r N -> running r n <-> (n <= N)%nat.
Proof.
  intros RN T. split.
  - intros Rn. destruct (Nat.le_gt_cases n N); auto. pose proof (Rn N H). lia.
  - intros H m Hm. apply RN. lia.
Qed.

Definition octant r x y := exists n, running r n /\ x = bx r n /\ y = by_ r n.

Section Paint.
Variables (L : Z) (v : Z -> Z) (Pt : Z -> Z -> Z -> Prop).
Variable setp : Z -> Z -> buf Z -> res (buf Z).
Hypothesis setp_ok : forall px py data, blen data = L ->
  exists b', setp px py data = Ok b' /\ paints v (Pt px py) data b'.

Definition circ1 x y dx dy := (Z.abs dx = Z.abs x /\ Z.abs dy = Z.abs y) \/ (Z.abs dx = Z.abs y /\ Z.abs dy = Z.abs x).
Definition dsk1 x y dx dy :=
  (Z.abs dy = Z.abs y /\ Z.abs dx <= x) \/ (x <> y /\ Z.abs dy = Z.abs x /\ Z.abs dx <= y).
Definition at_ (D : Z -> Z -> Prop) cx cy j := exists dx dy, D dx dy /\ Pt (cx + dx) (cy + dy) j.

Lemma paints_len (b b' : buf Z) S : blen b = L -> paints v S b b' -> blen b' = L.
Proof. intros <- [-> _]. reflexivity. Qed.

Lemma circle_points_ok cx cy x y data : blen data = L ->
  Z.abs cx + Z.abs x <= INT_MAX -> Z.abs cx + Z.abs y <= INT_MAX ->
  Z.abs cy + Z.abs x <= INT_MAX -> Z.abs cy + Z.abs y <= INT_MAX ->
  exists b', draw_circle_points setp cx cy x y data = Ok b' /\ paints v (at_ (circ1 x y) cx cy) data b'.
Proof.
  unfold INT_MAX. intros HL H1 H2 H3 H4. unfold draw_circle_points.
  rewrite (ck32_ok (cx + x)), (ck32_ok (cy + y)), (ck32_ok (cx - x)), (ck32_ok (cy - y)), (ck32_ok (cx + y)),
    (ck32_ok (cy + x)), (ck32_ok (cx - y)), (ck32_ok (cy - x)) by (unfold INT_MIN, INT_MAX; lia).
  rewrite !bind_Ok.
  destruct (setp_ok (cx + x) (cy + y) data HL) as (b1 & -> & P1). rewrite !bind_Ok. pose proof (paints_len _ _ _ HL P1) as L1.
  destruct (setp_ok (cx - x) (cy + y) b1 L1) as (b2 & -> & P2). rewrite !bind_Ok. pose proof (paints_len _ _ _ L1 P2) as L2.
  destruct (setp_ok (cx + x) (cy - y) b2 L2) as (b3 & -> & P3). rewrite !bind_Ok. pose proof (paints_len _ _ _ L2 P3) as L3.
  destruct (setp_ok (cx - x) (cy - y) b3 L3) as (b4 & -> & P4). rewrite !bind_Ok. pose proof (paints_len _ _ _ L3 P4) as L4.
  destruct (setp_ok (cx + y) (cy + x) b4 L4) as (b5 & -> & P5). rewrite !bind_Ok. pose proof (paints_len _ _ _ L4 P5) as L5.
  destruct (setp_ok (cx - y) (cy + x) b5 L5) as (b6 & -> & P6). rewrite !bind_Ok. pose proof (paints_len _ _ _ L5 P6) as L6.
  destruct (setp_ok (cx + y) (cy - x) b6 L6) as (b7 & -> & P7). rewrite !bind_Ok. pose proof (paints_len _ _ _ L6 P7) as L7.
  destruct (setp_ok (cx - y) (cy - x) b7 L7) as (b8 & -> & P8).
  exists b8. split; auto.
  pose proof (paints_trans _ _ _ _ _ _ (paints_trans _ _ _ _ _ _ (paints_trans _ _ _ _ _ _ P1 P2) (paints_trans _ _ _ _ _ _ P3 P4))
    (paints_trans _ _ _ _ _ _ (paints_trans _ _ _ _ _ _ P5 P6) (paints_trans _ _ _ _ _ _ P7 P8))) as P.
  eapply paints_iff; [|exact P]. intros j. unfold at_, circ1. split.
  - intros [[[H|H]|[H|H]]|[[H|H]|[H|H]]].
    + exists x, y. split; [lia|exact H].
    + exists (-x), y. split; [lia|]. now replace (cx + - x) with (cx - x) by ring.
    + exists x, (-y). split; [lia|]. now replace (cy + - y) with (cy - y) by ring.
    + exists (-x), (-y). split; [lia|]. replace (cx + - x) with (cx - x) by ring. now replace (cy + - y) with (cy - y) by ring.
    + exists y, x. split; [lia|exact H].
    + exists (-y), x. split; [lia|]. now replace (cx + - y) with (cx - y) by ring.
    + exists y, (-x). split; [lia|]. now replace (cy + - x) with (cy - x) by ring.
    + exists (-y), (-x). split; [lia|]. replace (cx + - y) with (cx - y) by ring. now replace (cy + - x) with (cy - x) by ring.
  - intros (dx & dy & D & H).
    destruct D as [[D1 D2]|[D1 D2]].
    + left. assert (dx = x \/ dx = - x) as [-> | ->] by lia; (assert (dy = y \/ dy = - y) as [-> | ->] by lia);
      rewrite ?Z.add_opp_r in H; auto.
    + right. assert (dx = y \/ dx = - y) as [-> | ->] by lia; (assert (dy = x \/ dy = - x) as [-> | ->] by lia);
      rewrite ?Z.add_opp_r in H; auto.
Qed.

Lemma fill_lines_ok cx cy x y data : blen data = L ->
  Z.abs cx + Z.abs x < INT_MAX -> Z.abs cy + Z.abs y <= INT_MAX ->
  exists b', fill_lines setp cx cy x y data = Ok b' /\
    paints v (at_ (fun dx dy => Z.abs dy = Z.abs y /\ Z.abs dx <= x) cx cy) data b'.
Proof.
  unfold INT_MAX. intros HL H1 H2. unfold fill_lines.
  rewrite (ck32_ok (cx - x)), (ck32_ok (cx + x)) by (unfold INT_MIN, INT_MAX; lia). rewrite !bind_Ok.
  destruct (for_paints v (fun i j => Pt i (cy + y) j \/ Pt i (cy - y) j) (cx - x) (cx + x + 1)
    (fun i data => yp <- ck32 (cy + y) ;; data <- setp i yp data ;; ym <- ck32 (cy - y) ;;
       data <- setp i ym data ;; _ <- ck32 (i + 1) ;; Ok data) data L HL) as (b' & E & P).
  { intros i b Hi Hb. rewrite (ck32_ok (cy + y)), (ck32_ok (cy - y)), (ck32_ok (i + 1)) by (unfold INT_MIN, INT_MAX; lia).
    rewrite bind_Ok. destruct (setp_ok i (cy + y) b Hb) as (b1 & -> & P1). rewrite !bind_Ok.
    destruct (setp_ok i (cy - y) b1 (paints_len _ _ _ Hb P1)) as (b2 & -> & P2). rewrite !bind_Ok.
    exists b2. split; auto. eapply paints_trans; eauto. }
  exists b'. split; [exact E|]. eapply paints_iff; [|exact P]. intros j. unfold at_. split.
  - intros (i & Hi & [H|H]).
    + exists (i - cx), y. split; [lia|]. now replace (cx + (i - cx)) with i by ring.
    + exists (i - cx), (- y). split; [lia|]. rewrite Z.add_opp_r. now replace (cx + (i - cx)) with i by ring.
  - intros (dx & dy & [D1 D2] & H). exists (cx + dx). split; [lia|].
    assert (dy = y \/ dy = - y) as [-> | ->] by lia; rewrite ?Z.add_opp_r in H; auto.
Qed.

Lemma fill_disk_ok cx cy x y data : blen data = L ->
  Z.abs cx + Z.abs x < INT_MAX -> Z.abs cx + Z.abs y < INT_MAX ->
  Z.abs cy + Z.abs x <= INT_MAX -> Z.abs cy + Z.abs y <= INT_MAX ->
  exists b', fill_disk_lines setp cx cy x y data = Ok b' /\ paints v (at_ (dsk1 x y) cx cy) data b'.
Proof.
  intros HL H1 H2 H3 H4. unfold fill_disk_lines.
  destruct (fill_lines_ok cx cy x y data HL H1 H4) as (b1 & -> & P1). rewrite bind_Ok.
  destruct (Z.eqb_spec x y) as [Ee|Ne]; simpl negb; cbv iota.
  - exists b1. split; auto. eapply paints_iff; [|exact P1]. intros j. unfold at_, dsk1. split.
    + intros (dx & dy & D & H). exists dx, dy. tauto.
    + intros (dx & dy & [D|(D & _)] & H); [|tauto]. exists dx, dy. tauto.
  - destruct (fill_lines_ok cx cy y x b1 (paints_len _ _ _ HL P1) H2 H3) as (b2 & -> & P2).
    exists b2. split; auto. eapply paints_iff; [|eapply paints_trans; [exact P1|exact P2]]. intros j. unfold at_, dsk1. split.
    + intros [(dx & dy & D & H)|(dx & dy & D & H)]; exists dx, dy; tauto.
    + intros (dx & dy & [D|(_ & D)] & H); [left|right]; exists dx, dy; tauto.
Qed.

End Paint.

Lemma bresenham_ok (L : Z) (v : Z -> Z) (shape : Z -> Z -> buf Z -> res (buf Z)) (Sh : Z -> Z -> Z -> Prop) r data :
  0 <= r <= 536870911 -> blen data = L ->
  (forall x y data, Z.abs x <= r + 1 -> Z.abs y <= r + 1 -> blen data = L ->
     exists b', shape x y data = Ok b' /\ paints v (Sh x y) data b') ->
  exists b', bresenham shape r data = Ok b' /\
    paints v (fun j => exists x y, octant r x y /\ Sh x y j) data b'.
Proof.
  intros Hr HL Hs. unfold bresenham.
  rewrite (ck32_ok (2 * r)), bind_Ok, (ck32_ok (3 - 2 * r)), bind_Ok by (unfold INT_MIN, INT_MAX; lia).
  destruct (Hs 0 r data ltac:(lia) ltac:(lia) HL) as (b0 & -> & P0). rewrite bind_Ok.
  destruct (bst_stops r ltac:(lia)) as (N & HN & RN & TN).
  match goal with |- context [while2 32 ?f _] => set (body := f) end.
  assert (W : forall k n b, (n + k = N)%nat -> paints v (fun j => exists m, (m <= n)%nat /\ Sh (bx r m) (by_ r m) j) data b ->
    exists b', while_ (S k) body (bst r n, b) = Ok b' /\
      paints v (fun j => exists m, (m <= N)%nat /\ Sh (bx r m) (by_ r m) j) data b').
  { induction k; intros n b Hn Pn.
    - assert (n = N) by lia. subst n. simpl. unfold body. unfold bx, by_ in TN. destruct (bst r N) as [[x y] d] eqn:Eb. simpl in TN.
      replace (x <=? y) with false by lia. simpl. eauto.
    - cbn [while_]. unfold body at 1. pose proof (RN n ltac:(lia)) as Hc.
      assert (R1 : running r (S n)) by (intros m Hm; apply RN; lia).
      assert (R0 : running r n) by (intros m Hm; apply RN; lia).
      pose proof (bst_binv r n ltac:(lia) R0) as I0. pose proof (bst_binv r (S n) ltac:(lia) R1) as I1.
      assert (r0 : 0 <= r) by lia. pose proof (binv_x _ _ _ _ r0 I1) as X1.
      pose proof (slack_le (by_ r (S n) - bx r (S n))) as SL.
      assert (Est : bst r (S n) = bstep (bst r n)) by reflexivity.
      destruct I1 as (_ & I1x & I1y & I1yx & _ & I1d & I1d2 & I1r). destruct I0 as (_ & I0x & I0y & I0yx & _ & I0d & I0d2 & I0r).
      assert (PS : forall b1 b2, blen b1 = L -> paints v (fun j => exists m, (m <= n)%nat /\ Sh (bx r m) (by_ r m) j) data b1 ->
         shape (bx r (S n)) (by_ r (S n)) b1 = Ok b2 -> paints v (Sh (bx r (S n)) (by_ r (S n))) b1 b2 ->
         paints v (fun j => exists m, (m <= S n)%nat /\ Sh (bx r m) (by_ r m) j) data b2).
      { intros b1 b2 _ Pb _ Pb2. eapply paints_iff; [|eapply paints_trans; [exact Pb|exact Pb2]]. intros j. split.
        - intros [(m & Hm & H)|H]; [exists m|exists (S n)]; auto.
        - intros (m & Hm & H). destruct (Nat.eq_dec m (S n)) as [->|]; auto. left. exists m. split; auto. lia. }
      assert (Lb : blen b = L) by (destruct Pn as [-> _]; exact HL).
      pose proof (bx_n r (S n)) as Bn.
      destruct (Hs (bx r (S n)) (by_ r (S n)) b ltac:(lia) ltac:(lia) Lb) as (b2 & Es & P2).
      destruct (IHk (S n) b2 ltac:(lia) (PS _ _ Lb Pn Es P2)) as (b' & Ew & Pw). exists b'. split; auto. rewrite <- Ew. clear Ew.
      rewrite Est. unfold bx, by_, bd in *. rewrite Est in *. destruct (bst r n) as [[x y] d]. cbn [fst snd] in *.
      replace (x <=? y) with true by lia. unfold bstep in *. destruct (0 <? d) eqn:Ed; cbn [fst snd] in *.
      + rewrite (ck32_ok (x + 1)), bind_Ok by (unfold INT_MIN, INT_MAX; lia). cbv beta.
        rewrite (ck32_ok (y - 1)), bind_Ok by (unfold INT_MIN, INT_MAX; lia).
        rewrite (ck32_ok (x + 1 - (y - 1))), bind_Ok by (unfold INT_MIN, INT_MAX; lia).
        rewrite (ck32_ok (4 * (x + 1 - (y - 1)))), bind_Ok by (unfold INT_MIN, INT_MAX; lia).
        rewrite (ck32_ok (d + 4 * (x + 1 - (y - 1)))), bind_Ok by (unfold INT_MIN, INT_MAX; lia).
        rewrite (ck32_ok (d + 4 * (x + 1 - (y - 1)) + 10)), bind_Ok by (unfold INT_MIN, INT_MAX; lia).
        rewrite Es, !bind_Ok. reflexivity.
      + rewrite (ck32_ok (x + 1)), bind_Ok by (unfold INT_MIN, INT_MAX; lia).
        rewrite (ck32_ok (4 * (x + 1))), bind_Ok by (unfold INT_MIN, INT_MAX; lia).
        rewrite (ck32_ok (d + 4 * (x + 1))), bind_Ok by (unfold INT_MIN, INT_MAX; lia).
        rewrite (ck32_ok (d + 4 * (x + 1) + 6)), bind_Ok by (unfold INT_MIN, INT_MAX; lia).
        rewrite Es, !bind_Ok. reflexivity. }
  destruct (W N O b0 ltac:(lia)) as (b' & E & P).
  { eapply paints_iff; [|exact P0]. intros j. split.
    - intros H. exists O. split; [lia|]. exact H.
    - intros (m & Hm & H). assert (m = O) by lia. subst m. exact H. }
  exists b'. split.
  - apply (while2_while body (S N)); [exact E|]. change (2 ^ Z.of_nat 32) with 4294967296. lia.
  - eapply paints_iff; [|exact P]. intros j. split.
    + intros (m & Hm & H). exists (bx r m), (by_ r m). split; auto. exists m. split; auto. apply (running_le r m N); auto.
    + intros (x & y & (m & Rm & -> & ->) & H). exists m. split; auto. apply (running_le r m N); auto.
Qed.

(** ** The shapes *)

Definition ring (r dx dy : Z) : Prop := exists x y, octant r x y /\ circ1 x y dx dy.
Definition filled (r dx dy : Z) : Prop := exists x y, octant r x y /\ dsk1 x y dx dy.

Lemma abs_sq a b : Z.abs a = Z.abs b -> a * a = b * b.
Proof. intros H. assert (a = b \/ a = - b) as [-> | ->] by lia; ring. Qed.

Lemma octant_inv r x y : 0 <= r -> octant r x y ->
  r*r - 3*r <= x*x + y*y <= r*r + r + 3 /\ 0 <= x <= r + 1 /\ y <= r /\ -1 <= y.
Proof.
  intros Hr (n & Rn & -> & ->). pose proof (bst_binv r n Hr Rn) as (_ & Hx & Hy & Hyx & HS & _ & _ & Hxr).
  split; [destruct (by_ r n <? bx r n); lia|]. split; [lia|]. split; auto.
  destruct n; [unfold by_; simpl; lia|]. rewrite bx_n in Hyx. lia.
Qed.

Lemma octant_pos r x y : 0 <= r -> octant r x y -> y < 0 -> x = 1 /\ y = -1.
Proof.
  intros Hr O Hy. pose proof (octant_inv r x y Hr O) as (_ & _ & _ & Hy1). split; [|lia].
  destruct O as (n & Rn & -> & ->). destruct n; [unfold by_ in Hy; simpl in Hy; lia|].
  pose proof (bst_binv r (S n) Hr Rn) as (_ & Hx & _ & Hyx & _). rewrite bx_n in *. lia.
Qed.

Lemma ring_bound r dx dy : 0 <= r -> ring r dx dy -> r*r - 3*r <= dx*dx + dy*dy <= r*r + r + 3.
Proof.
  intros Hr (x & y & O & [[H1 H2]|[H1 H2]]); apply abs_sq in H1, H2; pose proof (octant_inv r x y Hr O) as (B & _); lia.
Qed.

Lemma ring_sym r dx dy : ring r dx dy -> ring r dy dx /\ ring r (- dx) dy /\ ring r dx (- dy).
Proof.
  intros (x & y & O & H). unfold circ1 in H. split; [|split]; exists x, y; (split; [exact O|]); unfold circ1; rewrite ?Z.abs_opp; tauto.
Qed.

Lemma by_step r n : by_ r (S n) = by_ r n \/ by_ r (S n) = by_ r n - 1.
Proof. unfold by_. simpl bst. destruct (bst r n) as [[x y] d]. unfold bstep. destruct (0 <? d); simpl; auto. Qed.

Lemma by_ivt r N k : by_ r N <= k <= r -> exists n, (n <= N)%nat /\ by_ r n = k.
Proof.
  induction N; intros H.
  - exists O. unfold by_ in *; simpl in *. split; auto; lia.
  - destruct (by_step r N) as [E|E].
    + destruct IHN as (n & Hn & En); [lia|]. exists n; split; auto.
    + destruct (Z.eq_dec (by_ r (S N)) k) as [Ek|Nk]; [exists (S N); auto|].
      destruct IHN as (n & Hn & En); [lia|]. exists n; split; auto.
Qed.

(** Every row of the octant's square is reached. *)
Lemma octant_rows r k : 0 <= r -> 0 <= k <= r -> exists x y, octant r x y /\ 0 <= y /\ (k = y \/ (x <> y /\ k = x)).
Proof.
  intros Hr Hk. destruct (bst_stops r Hr) as (N & _ & RN & TN). destruct (Z_lt_le_dec k (Z.of_nat N)) as [C|C].
  - exists (bx r (Z.to_nat k)), (by_ r (Z.to_nat k)).
    assert (R : running r (Z.to_nat k)) by (intros m Hm; apply RN; lia).
    pose proof (RN (Z.to_nat k) ltac:(lia)) as H. rewrite bx_n in *. split; [|split; [lia|lia]].
    exists (Z.to_nat k). rewrite bx_n. auto.
  - rewrite bx_n in TN. destruct (by_ivt r N k ltac:(lia)) as (n & Hn & En).
    exists (bx r n), (by_ r n). split; [|split; [lia|auto]]. exists n. split; auto. intros m Hm; apply RN; lia.
Qed.

Lemma ring_rows r dy : 0 <= r -> Z.abs dy <= r -> exists dx, ring r dx dy.
Proof.
  intros Hr H. destruct (octant_rows r (Z.abs dy) Hr ltac:(lia)) as (x & y & O & Hy & [E|[_ E]]).
  - exists x. exists x, y. split; auto. left. lia.
  - exists y. exists x, y. split; auto. right. lia.
Qed.

Lemma filled_bound r dx dy : 0 <= r -> filled r dx dy -> dx*dx + dy*dy <= r*r + r + 3.
Proof.
  intros Hr (x & y & O & [[H1 H2]|(_ & H1 & H2)]); apply abs_sq in H1; pose proof (octant_inv r x y Hr O) as (B & _).
  - assert (dx * dx <= x * x) by (rewrite <- (Z.abs_square dx); nia). lia.
  - assert (dx * dx <= y * y) by (rewrite <- (Z.abs_square dx); nia). lia.
Qed.

Lemma filled_run r dx dx' dy : filled r dx dy -> Z.abs dx' <= Z.abs dx -> filled r dx' dy.
Proof. intros (x & y & O & H) H'. exists x, y. split; auto. unfold dsk1 in *. lia. Qed.

Lemma filled_row r dy : 0 <= r -> Z.abs dy <= r -> filled r 0 dy.
Proof.
  intros Hr H. destruct (octant_rows r (Z.abs dy) Hr ltac:(lia)) as (x & y & O & Hy & [E|[Nx E]]);
  pose proof (octant_inv r x y Hr O) as (B & Bx & _); exists x, y; (split; auto); unfold dsk1; lia.
Qed.

Lemma filled_sym r dx dy : filled r dx dy -> filled r (- dx) dy /\ filled r dx (- dy).
Proof. intros (x & y & O & H). unfold dsk1 in *. split; exists x, y; (split; auto); unfold dsk1; rewrite ?Z.abs_opp; auto. Qed.

Lemma filled_all r dx dy : 0 <= r -> dx*dx + dy*dy <= r*r - 3*r -> filled r dx dy.
Proof.
  intros Hr H. assert (Hd : Z.abs dy <= r). { rewrite <- (Z.abs_square dy) in H. nia. }
  destruct (octant_rows r (Z.abs dy) Hr ltac:(lia)) as (x & y & O & Hy & [E|[Nx E]]);
  pose proof (octant_inv r x y Hr O) as (B & Bx & _); exists x, y; (split; auto); unfold dsk1.
  - left. split; [lia|]. rewrite <- (Z.abs_square dy), E, <- (Z.abs_square dx) in H. nia.
  - right. split; auto. split; [lia|]. rewrite <- (Z.abs_square dy), E, <- (Z.abs_square dx) in H. nia.
Qed.

Lemma ring_filled r dx dy : 0 <= r -> ring r dx dy -> filled r dx dy.
Proof.
  intros Hr (x & y & O & [[H1 H2]|[H1 H2]]); pose proof (octant_inv r x y Hr O) as (B & Bx & _); exists x, y; (split; auto); unfold dsk1.
  - left. lia.
  - destruct (Z.eq_dec x y) as [->|N]; [left; lia|]. destruct (Z_lt_le_dec y 0) as [C|C]; [|right; lia].
    pose proof (octant_pos r x y Hr O C). left; lia.
Qed.

(** ** Setting a pixel *)
Definition colf (ch cr cg cb gv c : Z) : Z :=
  if ch =? 1 then gv else if c =? 0 then cr else if c =? 1 then cg else if c =? 2 then cb else 255.
Definition pixset (w h ch : Z) (P : Z -> Z -> Prop) (j : Z) : Prop :=
  exists x y c, inside w h x y /\ 0 <= c < ch /\ P x y /\ j = (y * w + x) * ch + c.

Lemma idx_mod w ch x y c : 0 <= c < ch -> ((y * w + x) * ch + c) mod ch = c.
Proof. intros H. rewrite Z.add_comm, Z.mod_add by lia. apply Z.mod_small; auto. Qed.

Lemma px_size w h ch x y c : inside w h x y -> 0 < ch -> 0 <= c < ch ->
  0 <= y * w < w * h /\ 0 <= y * w + x < w * h /\ 0 <= (y * w + x) * ch /\ (y * w + x) * ch + c < w * h * ch.
Proof.
  intros [Hx Hy] Hch Hc. pose proof (rm_bound w h x y Hx Hy). split; [nia|]. split; auto. nia.
Qed.

Lemma set_px_ok w h ch cr cg cb gv px py data : 0 < w <= 2147483647 -> 0 < h <= 2147483647 ->
  (ch = 1 \/ ch = 3 \/ ch = 4) -> draw_luma cr cg cb = Ok gv -> w * h * ch <= blen data ->
  exists b', set_circle_pixel w h ch (cr, cg, cb) px py data = Ok b' /\
    paints (fun j => colf ch cr cg cb gv (j mod ch)) (pixset w h ch (fun x y => x = px /\ y = py)) data b'.
Proof.
  intros Hw Hh Hch Hg HL. unfold set_circle_pixel.
  replace (w =? 0) with false by lia. replace (h =? 0) with false by lia. replace (ch =? 0) with false by lia. cbn [orb]. cbv iota.
  rewrite !s32_small by (unfold INT_MIN, INT_MAX; lia).
  destruct (Z.leb_spec 0 px) as [C1|C1]; cbn [andb];
    [destruct (Z.ltb_spec px w) as [C2|C2]; cbn [andb];
      [destruct (Z.leb_spec 0 py) as [C3|C3]; cbn [andb];
       [destruct (Z.ltb_spec py h) as [C4|C4]|]|]|]; cbv iota;
    try (eexists; split; [reflexivity|]; apply paints_refl; intros j (x & y & c & [Hx Hy] & _ & [-> ->] & _); lia).
  assert (Hin : inside w h px py) by (split; lia).
  destruct (px_size w h ch px py 0 Hin ltac:(lia) ltac:(lia)) as (B1 & B2 & B3 & _).
  pose proof (px_size w h ch px py (ch - 1) Hin ltac:(lia) ltac:(lia)) as (_ & _ & _ & B4).
  assert (Wh : w * h <= 2147483647 * 2147483647) by (apply Z.mul_le_mono_nonneg; lia).
  assert (WC : w * h * ch <= 4 * (2147483647 * 2147483647)) by nia.
  rewrite (u64_small (py * w)) by (unfold U64; lia). rewrite (u64_small (py * w + px)) by (unfold U64; lia).
  rewrite (u64_small ((py * w + px) * ch)) by (unfold U64; lia).
  destruct (Z.eqb_spec ch 1) as [Ec|Nc].
  - rewrite Hg, bind_Ok. subst ch. destruct (paints_store (fun j => colf 1 cr cg cb gv (j mod 1)) data ((py * w + px) * 1) gv) as (b' & E & P).
    { lia. } { reflexivity. }
    exists b'. split; auto. eapply paints_iff; [|exact P]. intros j. split.
    + intros ->. exists px, py, 0. split; auto. split; [lia|]. split; [auto|lia].
    + intros (x & y & c & _ & Hc & [-> ->] & ->). lia.
  - replace (3 <=? ch) with true by lia. set (i := (py * w + px) * ch) in *.
    assert (V : forall c, 0 <= c < ch -> (i + c) mod ch = c) by (intros c Hc; apply idx_mod; auto).
    set (v := fun j => colf ch cr cg cb gv (j mod ch)).
    rewrite (u64_small (i + 1)), (u64_small (i + 2)) by (unfold U64; lia).
    destruct (paints_store v data i cr) as (b1 & -> & P1); [lia| |].
    { unfold v. replace i with (i + 0) by ring. rewrite V by lia. unfold colf. replace (ch =? 1) with false by lia. reflexivity. }
    rewrite bind_Ok. pose proof (proj1 P1) as L1.
    destruct (paints_store v b1 (i + 1) cg) as (b2 & -> & P2); [lia| |].
    { unfold v. rewrite V by lia. unfold colf. replace (ch =? 1) with false by lia. reflexivity. }
    rewrite bind_Ok. pose proof (proj1 P2) as L2.
    destruct (paints_store v b2 (i + 2) cb) as (b3 & -> & P3); [lia| |].
    { unfold v. rewrite V by lia. unfold colf. replace (ch =? 1) with false by lia. reflexivity. }
    rewrite bind_Ok. pose proof (proj1 P3) as L3.
    pose proof (paints_trans _ _ _ _ _ _ P1 (paints_trans _ _ _ _ _ _ P2 P3)) as P.
    destruct (Z.eqb_spec ch 4) as [E4|N4].
    + rewrite (u64_small (i + 3)) by (unfold U64; lia).
      destruct (paints_store v b3 (i + 3) 255) as (b4 & -> & P4); [lia| |].
      { unfold v. rewrite V by lia. unfold colf. replace (ch =? 1) with false by lia. reflexivity. }
      exists b4. split; auto. eapply paints_iff; [|eapply paints_trans; [exact P|exact P4]]. intros j. split.
      * intros H. exists px, py, (j - i). fold i. split; auto. split; [lia|]. split; [auto|lia].
      * intros (x & y & c & _ & Hc & [-> ->] & ->). fold i. lia.
    + exists b3. split; auto. eapply paints_iff; [|exact P]. intros j. split.
      * intros H. exists px, py, (j - i). fold i. split; auto. split; [lia|]. split; [auto|lia].
      * intros (x & y & c & _ & Hc & [-> ->] & ->). fold i. lia.
Qed.

(** From painted positions to painted pixels. *)
Lemma paints_painted w h ch col (P : Z -> Z -> Prop) b b' : 0 < w -> 0 < h -> 0 < ch ->
  paints (fun j => col (j mod ch)) (pixset w h ch P) b b' -> painted w h ch col P b b'.
Proof.
  intros Hw Hh Hch [L H]. split; auto. split.
  - intros x y c Hin Hc. unfold pix. destruct (H ((y * w + x) * ch + c)) as [Ha Hb]. rewrite (idx_mod w ch x y c Hc) in *. split.
    + intros Hp. apply Ha. exists x, y, c. auto.
    + intros Hn. destruct Hb as [|[(x' & y' & c' & Hin' & Hc' & Hp & E) _]]; auto. exfalso. apply Hn.
      assert (c' = c). { rewrite <- (idx_mod w ch x y c Hc), <- (idx_mod w ch x' y' c' Hc'). congruence. }
      subst c'. assert (E2 : y * w + x = y' * w + x') by nia. destruct Hin, Hin'.
      destruct (rm_inj w x y x' y') as [-> ->]; auto.
  - intros j Hj. destruct (H j) as [_ [|[(x & y & c & Hin & Hc & _ & E) _]]]; auto.
    pose proof (px_size w h ch x y c Hin Hch Hc). lia.
Qed.

(** ** The drawing functions *)

Definition shape_run := (Z -> Z -> buf Z -> res (buf Z)) -> Z -> Z -> Z -> Z -> buf Z -> res (buf Z).

Lemma draw_shape_exact (shape : shape_run) (D1 : Z -> Z -> Z -> Z -> Prop) w h ch hex radius cx cy s p b cr cg cb :
  (forall L v Pt setp cx cy x y data,
     (forall px py data, blen data = L -> exists b', setp px py data = Ok b' /\ paints v (Pt px py) data b') ->
     blen data = L -> Z.abs cx + Z.abs x < INT_MAX -> Z.abs cx + Z.abs y < INT_MAX ->
     Z.abs cy + Z.abs x <= INT_MAX -> Z.abs cy + Z.abs y <= INT_MAX ->
     exists b', shape setp cx cy x y data = Ok b' /\ paints v (at_ Pt (D1 x y) cx cy) data b') ->
  draw_ok w h ch radius cx cy -> holds s p b -> w * h * ch <= blen b -> parse_hex_color hex = Ok (cr, cg, cb) ->
  exists gv, draw_luma cr cg cb = Ok gv /\ drawn_colour ch cr cg cb (colf ch cr cg cb gv) /\
  rewrites s p (draw_shape shape w h ch (Some hex) radius cx cy p s)
    (painted w h ch (colf ch cr cg cb gv) (fun x y => exists x0 y0, octant (int_part radius) x0 y0 /\ D1 x0 y0 (x - int_part cx) (y - int_part cy)) b).
Proof.
  intros Hsh (Hw & Hh & Hch & Fr & Fx & Fy & Hneg & Hr & Hcx & Hcy) (d & -> & Hb) HL Hhex.
  assert (Bc : byte cr /\ byte cg /\ byte cb). { apply (parse_hex_bytes hex). rewrite parse_hex_pure in Hhex. now injection Hhex. }
  destruct Bc as (Br & Bg & Bb). destruct (draw_luma_ok cr cg cb Br Bg Bb) as (gv & Eg & Sg).
  exists gv. split; [exact Eg|]. split.
  { unfold drawn_colour, colf. destruct (Z.eqb_spec ch 1); [exact Sg|]. cbn. auto. }
  assert (Hr0 : 0 <= int_part radius).
  { unfold int_part. pose proof (btrunc_R radius _ (isd_finite _ Fr)) as Eb. rewrite Eb.
    rewrite (dlt_R radius d0 _ _ (isd_finite _ Fr) isd_d0) in Hneg. destruct (Rlt_bool_spec (B2R radius) 0) as [|C]; [discriminate|].
    rewrite Ztrunc_floor by auto. apply Zfloor_lub. exact C. }
  assert (Hbig : dlt (d_of_Z (INT_MAX / 2)) radius = false).
  { rewrite (dlt_R _ radius _ _ (d_of_Z_exact (INT_MAX / 2) ltac:(unfold INT_MAX; cbn; lia)) (isd_finite _ Fr)).
    apply Rlt_bool_false. unfold int_part in Hr, Hr0. rewrite (btrunc_R radius _ (isd_finite _ Fr)) in Hr, Hr0.
    destruct (Rle_lt_dec 0 (B2R radius)) as [C|C].
    - rewrite Ztrunc_floor in Hr by auto. pose proof (Zfloor_ub (B2R radius)) as U.
      apply IZR_le in Hr. change (INT_MAX / 2) with 1073741823. lra.
    - change (INT_MAX / 2) with 1073741823. lra. }
  assert (Er : to_i32 radius = Ok (int_part radius)).
  { unfold to_i32, cast_int. fold (dfinite radius). rewrite Fr. fold (int_part radius). cbv zeta.
    replace (INT_MIN <=? int_part radius) with true by (unfold INT_MIN; lia).
    replace (int_part radius <=? INT_MAX) with true by (unfold INT_MAX; lia). reflexivity. }
  assert (Ex : to_i32 cx = Ok (int_part cx)).
  { unfold to_i32, cast_int. fold (dfinite cx). rewrite Fx. fold (int_part cx). cbv zeta.
    replace (INT_MIN <=? int_part cx) with true by (unfold INT_MIN; lia).
    replace (int_part cx <=? INT_MAX) with true by (unfold INT_MAX; lia). reflexivity. }
  assert (Ey : to_i32 cy = Ok (int_part cy)).
  { unfold to_i32, cast_int. fold (dfinite cy). rewrite Fy. fold (int_part cy). cbv zeta.
    replace (INT_MIN <=? int_part cy) with true by (unfold INT_MIN; lia).
    replace (int_part cy <=? INT_MAX) with true by (unfold INT_MAX; lia). reflexivity. }
  unfold draw_shape. change (is_null (Ptr d)) with false.
  replace (w =? 0) with false by lia. replace (h =? 0) with false by lia. replace (ch =? 0) with false by lia. cbn [orb].
  rewrite Hneg, Fr, Fx, Fy. cbn [orb negb]. rewrite Hbig. cbv iota.
  rewrite Hhex, Er, Ex, Ey. rewrite (bindM_lift _ _ _ _ eq_refl), (bindM_lift _ _ _ _ eq_refl), (bindM_lift _ _ _ _ eq_refl), (bindM_lift _ _ _ _ eq_refl).
  rewrite (bindM_Ok _ _ _ _ _ (get_bytes_ok s d b Hb)).
  set (r := int_part radius) in *. set (x0 := int_part cx) in *. set (y0 := int_part cy) in *.
  destruct (bresenham_ok (blen b) (fun j => colf ch cr cg cb gv (j mod ch))
     (shape (set_circle_pixel w h ch (cr, cg, cb)) x0 y0)
     (fun x y => at_ (fun px py => pixset w h ch (fun x y => x = px /\ y = py)) (D1 x y) x0 y0) r b) as (b' & Eb & Pb).
  { lia. } { reflexivity. }
  { intros x y data Ax Ay Ld. apply (Hsh (blen b)); auto; try (unfold INT_MAX; lia).
    intros px py data' Ld'. apply set_px_ok; auto. lia. }
  rewrite (bindM_lift _ _ _ _ Eb). rewrite (put_bytes_ok s d (OBytes b) b' Hb).
  exists d, (mkst (upd (mem s) d (Some (OBytes b'))) (nxt s) (orc s) (tick s)), b'. cbn [mem nxt orc tick].
  split; [reflexivity|]. split; [reflexivity|]. split; [apply upd_same|]. split.
  - apply paints_painted; [lia|lia|lia|]. eapply paints_iff; [|exact Pb]. intros j. unfold at_, pixset. split.
    + intros (x & y & O & dx & dy & HD & px & py & c & Hin & Hc & [-> ->] & ->).
      exists (x0 + dx), (y0 + dy), c. do 2 (split; [auto|]). split; auto. exists x, y. split; auto.
      replace (x0 + dx - x0) with dx by ring. replace (y0 + dy - y0) with dy by ring. exact HD.
    + intros (px & py & c & Hin & Hc & (x & y & O & HD) & ->). exists x, y. split; auto. exists (px - x0), (py - y0).
      split; auto. replace (x0 + (px - x0)) with px by ring. replace (y0 + (py - y0)) with py by ring.
      exists px, py, c. auto.
  - split; [intros j Hj; apply upd_other; auto|]. auto.
Qed.

Lemma draw_shape_ok (shape : shape_run) (D1 : Z -> Z -> Z -> Z -> Prop) w h ch hex radius cx cy s p b cr cg cb :
  (forall L v Pt setp cx cy x y data,
     (forall px py data, blen data = L -> exists b', setp px py data = Ok b' /\ paints v (Pt px py) data b') ->
     blen data = L -> Z.abs cx + Z.abs x < INT_MAX -> Z.abs cx + Z.abs y < INT_MAX ->
     Z.abs cy + Z.abs x <= INT_MAX -> Z.abs cy + Z.abs y <= INT_MAX ->
     exists b', shape setp cx cy x y data = Ok b' /\ paints v (at_ Pt (D1 x y) cx cy) data b') ->
  draw_ok w h ch radius cx cy -> holds s p b -> w * h * ch <= blen b -> parse_hex_color hex = Ok (cr, cg, cb) ->
  exists col, drawn_colour ch cr cg cb col /\
  rewrites s p (draw_shape shape w h ch (Some hex) radius cx cy p s)
    (painted w h ch col (fun x y => exists x0 y0, octant (int_part radius) x0 y0 /\ D1 x0 y0 (x - int_part cx) (y - int_part cy)) b).
Proof.
  intros Hsh Hd Hp HL Hx. destruct (draw_shape_exact shape D1 w h ch hex radius cx cy s p b cr cg cb Hsh Hd Hp HL Hx) as (gv & _ & C & R). eauto.
Qed.
