(** * P_Persp: proofs about fcv_apply_matrix_3x3 *)
From Coq Require Import Reals Lra Psatz.
From Flocq Require Import Core.
From Verif Require Import Base BaseLemmas F FLemmas FErr Heap HeapLemmas Spec Spec_Persp P_Color.
From Verif Require Import M_Persp.
Local Open Scope Z_scope.

(** ** Pixel loops over a zeroed picture *)

Lemma loop2d_zeroed nc w h v (body : Z -> Z -> buf Z -> res (buf Z)) b0 : 0 < nc -> 0 < w -> 0 < h ->
  blen b0 = w * h * nc -> (forall i, 0 <= i < w * h * nc -> bget b0 i = Some 0) ->
  (forall x y b, 0 <= x < w -> 0 <= y < h -> blen b = w * h * nc ->
     (forall c, 0 <= c < nc -> bget b ((y * w + x) * nc + c) = Some 0) ->
     exists b', body x y b = Ok b' /\ blen b' = w * h * nc /\
       (forall c, 0 <= c < nc -> bget b' ((y * w + x) * nc + c) = Some (v x y c)) /\
       (forall j, j < (y * w + x) * nc \/ (y * w + x) * nc + nc <= j -> bget b' j = bget b j)) ->
  exists b', for_ 0 h (fun y b => for_ 0 w (fun x b => body x y b) b) b0 = Ok b' /\ blen b' = w * h * nc /\
    forall x y c, 0 <= x < w -> 0 <= y < h -> 0 <= c < nc -> bget b' ((y * w + x) * nc + c) = Some (v x y c).
Proof.
  intros Hnc Hw Hh HL H0 HB.
  set (I := fun (k : Z) (b : buf Z) => blen b = w * h * nc /\
     forall p c, 0 <= p < w * h -> 0 <= c < nc -> bget b (p * nc + c) = Some (if p <? k then v (p mod w) (p / w) c else 0)).
  destruct (for_inv (fun y b => I (y * w) b) 0 h (fun y b => for_ 0 w (fun x b => body x y b) b) b0) as (b' & E & L & G).
  - lia.
  - split; auto. intros p c Hp Hc. replace (p <? 0 * w) with false by lia. apply H0. nia.
  - intros y b Hy Hb.
    destruct (for_inv (fun x b => I (y * w + x) b) 0 w (fun x b => body x y b) b) as (b1 & E1 & I1).
    + lia.
    + now rewrite Z.add_0_r.
    + intros x b1 Hx [L1 G1]. pose proof (rm_bound w h x y Hx Hy) as Bp.
      destruct (HB x y b1 Hx Hy L1) as (b2 & E2 & L2 & V2 & O2).
      { intros c Hc. rewrite G1 by (auto; lia). replace (y * w + x <? y * w + x) with false by lia. reflexivity. }
      exists b2. split; auto. split; auto. intros p c Hp Hc.
      destruct (Z.eq_dec p (y * w + x)) as [->|Hne].
      * rewrite V2 by auto. replace (y * w + x <? y * w + (x + 1)) with true by lia.
        replace ((y * w + x) mod w) with x by (rewrite Z.add_comm, Z.mod_add, Z.mod_small by lia; lia).
        replace ((y * w + x) / w) with y by (rewrite Z.add_comm, Z.div_add, Z.div_small by lia; lia). reflexivity.
      * rewrite O2 by nia. rewrite G1 by auto. replace (p <? y * w + (x + 1)) with (p <? y * w + x) by lia. reflexivity.
    + exists b1. split; auto. now replace ((y + 1) * w) with (y * w + w) by ring.
  - exists b'. split; auto. split; auto. intros x y c Hx Hy Hc. pose proof (rm_bound w h x y Hx Hy) as Bp.
    rewrite G by (auto; lia). replace (y * w + x <? h * w) with true by lia.
    replace ((y * w + x) mod w) with x by (rewrite Z.add_comm, Z.mod_add, Z.mod_small by lia; lia).
    replace ((y * w + x) / w) with y by (rewrite Z.add_comm, Z.div_add, Z.div_small by lia; lia). reflexivity.
Qed.

(** ** The blend of four bytes *)

Local Notation e53 := (1 / 9007199254740992)%R.
Local Notation e45 := (1 / 35184372088832)%R.
Local Notation e43 := (1 / 8796093022208)%R.

Lemma rd_k r k b e : -1000 <= k <= 1000 -> b = bpow radix2 k -> (e = b / 9007199254740992)%R -> (Rabs r <= b)%R ->
  (r - e <= rd r <= r + e)%R.
Proof.
  intros Hk Hb -> Hr. pose proof (rd_near r k b Hk Hb Hr) as N.
  change (bpow radix2 (-53)) with (/ 9007199254740992)%R in N. unfold Rdiv. exact N.
Qed.

Lemma mul_step x y a b : isd x a -> isd y b -> (0 <= a <= 255)%R -> (0 <= b <= 1)%R ->
  exists r, isd (dmul x y) r /\ (0 <= r <= 255)%R /\ (a * b - e45 <= r <= a * b + e45)%R.
Proof.
  intros Hx Hy Ha Hb. assert (P : (0 <= a * b <= 255)%R) by nra.
  exists (rd (a * b)). split; [apply dmul_R; auto; apply (abs_big _ 255); [apply Rabs_le; lra|lia]|].
  split; [split; [apply (rd_ge_Z _ 0)|apply (rd_le_Z _ 255)]; lra || lia|].
  apply (rd_k _ 8 256%R); [lia|reflexivity|lra|apply Rabs_le; lra].
Qed.

Lemma one_minus x a : isd x a -> (0 <= a <= 1)%R ->
  exists r, isd (dsub F.d1 x) r /\ (0 <= r <= 1)%R /\ (1 - a - e53 <= r <= 1 - a + e53)%R.
Proof.
  intros Hx Ha. exists (rd (1 - a)). split; [apply dsub_R; [apply isd_d1|auto|]; apply (abs_big _ 1); [apply Rabs_le; lra|lia]|].
  split; [split; [apply (rd_ge_Z _ 0)|apply (rd_le_Z _ 1)]; lra || lia|].
  apply (rd_k _ 0 1%R); [lia|reflexivity|lra|apply Rabs_le; lra].
Qed.

Lemma term_err a U V U' V' r t : (0 <= a <= 255)%R -> (0 <= U <= 1)%R -> (0 <= V <= 1)%R -> (0 <= U' <= 1)%R -> (0 <= V' <= 1)%R ->
  (U - e53 <= U' <= U + e53)%R -> (V - e53 <= V' <= V + e53)%R ->
  (a * U' - e45 <= r <= a * U' + e45)%R -> (0 <= r <= 255)%R -> (r * V' - e45 <= t <= r * V' + e45)%R ->
  (a * U * V - e43 <= t <= a * U * V + e43)%R.
Proof.
  intros Ha HU HV HU' HV' EU EV Er Br Et.
  assert (P1 : (a * U - 2 * e45 <= r <= a * U + 2 * e45)%R).
  { assert (255 * e53 <= e45)%R by lra.
    assert (a * (U' - U) <= 255 * e53)%R by nra. assert (- (255 * e53) <= a * (U' - U))%R by nra. lra. }
  assert (P2 : (r * V - e45 <= r * V' <= r * V + e45)%R).
  { assert (r * (V' - V) <= 255 * e53)%R by nra. assert (- (255 * e53) <= r * (V' - V))%R by nra. lra. }
  assert (P3 : (a * U * V - 2 * e45 <= r * V <= a * U * V + 2 * e45)%R).
  { assert ((r - a * U) * V <= 2 * e45)%R by nra. assert (- (2 * e45) <= (r - a * U) * V)%R by nra. lra. }
  clear - Et P2 P3. lra.
Qed.

Lemma term_ok x u v a U V U' V' : isd x a -> isd u U' -> isd v V' ->
  (0 <= a <= 255)%R -> (0 <= U <= 1)%R -> (0 <= V <= 1)%R -> (0 <= U' <= 1)%R -> (0 <= V' <= 1)%R ->
  (U - e53 <= U' <= U + e53)%R -> (V - e53 <= V' <= V + e53)%R ->
  exists t, isd (dmul (dmul x u) v) t /\ (0 <= t <= 255)%R /\ (a * U * V - e43 <= t <= a * U * V + e43)%R.
Proof.
  intros Hx Hu Hv Ha HU HV HU' HV' EU EV.
  destruct (mul_step x u a U' Hx Hu Ha HU') as (r & Hr & Br & Er).
  destruct (mul_step _ v r V' Hr Hv Br HV') as (t & Ht & Bt & Et).
  exists t. split; auto. split; auto. eapply term_err with (U' := U') (V' := V') (r := r); eauto.
Qed.

Lemma add_step x y a b : isd x a -> isd y b -> (0 <= a <= 765)%R -> (0 <= b <= 255)%R ->
  exists r, isd (dadd x y) r /\ (0 <= r <= 1020)%R /\ (a + b - e43 <= r <= a + b + e43)%R /\ ((a <= 255)%R -> (r <= 510)%R) /\ ((a <= 510)%R -> (r <= 765)%R).
Proof.
  intros Hx Hy Ha Hb. exists (rd (a + b)).
  split; [apply dadd_R; auto; apply (abs_big _ 1020); [apply Rabs_le; lra|lia]|].
  split; [split; [apply (rd_ge_Z _ 0)|apply (rd_le_Z _ 1020)]; lra || lia|].
  split; [apply (rd_k _ 10 1024%R); [lia|reflexivity|lra|apply Rabs_le; lra]|].
  split; intros; [apply (rd_le_Z _ 510)|apply (rd_le_Z _ 765)]; lra || lia.
Qed.

Definition bil (a b c d D E : R) : R := (a * (1 - D) * (1 - E) + b * D * (1 - E) + c * (1 - D) * E + d * D * E)%R.

Lemma bil_range a b c d D E lo hi : (0 <= D <= 1)%R -> (0 <= E <= 1)%R ->
  (lo <= a <= hi)%R -> (lo <= b <= hi)%R -> (lo <= c <= hi)%R -> (lo <= d <= hi)%R -> (lo <= bil a b c d D E <= hi)%R.
Proof.
  intros HD HE Ha Hb Hc Hd. unfold bil.
  assert (P1 : (lo <= a * (1 - D) + b * D <= hi)%R) by (split; nra).
  assert (P2 : (lo <= c * (1 - D) + d * D <= hi)%R) by (split; nra).
  replace (_ + _)%R with ((a * (1 - D) + b * D) * (1 - E) + (c * (1 - D) + d * D) * E)%R by ring.
  set (p := (a * (1 - D) + b * D)%R) in *. set (q := (c * (1 - D) + d * D)%R) in *. clearbody p q. split; nra.
Qed.

Lemma blend_ok p00 p01 p10 p11 dx dy D E :
  0 <= p00 <= 255 -> 0 <= p01 <= 255 -> 0 <= p10 <= 255 -> 0 <= p11 <= 255 ->
  isd dx D -> isd dy E -> (0 <= D <= 1)%R -> (0 <= E <= 1)%R ->
  exists r, isd (blend p00 p01 p10 p11 dx dy) r /\ (0 <= r <= 255 + 1 / 100000000000)%R /\
    (bil (IZR p00) (IZR p01) (IZR p10) (IZR p11) D E - 1 / 100000000000 <= r
     <= bil (IZR p00) (IZR p01) (IZR p10) (IZR p11) D E + 1 / 100000000000)%R.
Proof.
  intros H00 H01 H10 H11 Hx Hy HD HE. unfold blend.
  assert (Z : forall p, 0 <= p <= 255 -> isd (d_of_Z p) (IZR p) /\ (0 <= IZR p <= 255)%R).
  { intros p Hp. split; [apply d_of_Z_exact; lia|]. split; apply IZR_le; lia. }
  destruct (Z _ H00) as [I00 B00], (Z _ H01) as [I01 B01], (Z _ H10) as [I10 B10], (Z _ H11) as [I11 B11]. clear Z.
  destruct (one_minus dx D Hx HD) as (u & Hu & Bu & Eu). destruct (one_minus dy E Hy HE) as (v & Hv & Bv & Ev).
  pose proof (bil_range (IZR p00) (IZR p01) (IZR p10) (IZR p11) D E 0 255 HD HE B00 B01 B10 B11) as Bb.
  assert (RD : (D - e53 <= D <= D + e53)%R) by lra. assert (RE : (E - e53 <= E <= E + e53)%R) by lra.
  assert (R1D : (0 <= 1 - D <= 1)%R) by lra. assert (R1E : (0 <= 1 - E <= 1)%R) by lra.
  destruct (term_ok _ _ _ (IZR p00) (1 - D) (1 - E) u v I00 Hu Hv B00 R1D R1E Bu Bv Eu Ev) as (t0 & T0 & BT0 & ET0).
  destruct (term_ok _ _ _ (IZR p01) D (1 - E) D v I01 Hx Hv B01 HD R1E HD Bv RD Ev) as (t1 & T1 & BT1 & ET1).
  destruct (term_ok _ _ _ (IZR p10) (1 - D) E u E I10 Hu Hy B10 R1D HE Bu HE Eu RE) as (t2 & T2 & BT2 & ET2).
  destruct (term_ok _ _ _ (IZR p11) D E D E I11 Hx Hy B11 HD HE HD HE RD RE) as (t3 & T3 & BT3 & ET3).
  destruct (add_step _ _ t0 t1 T0 T1) as (s1 & S1 & _ & ES1 & BS1 & _); [lra|lra|]. specialize (BS1 ltac:(lra)).
  assert (0 <= s1)%R by (destruct S1 as [_ <-]; destruct (add_step _ _ t0 t1 T0 T1 ltac:(lra) ltac:(lra)) as (z & [_ Z] & BZ & _); rewrite Z; lra).
  destruct (add_step _ _ s1 t2 S1 T2) as (s2 & S2 & BS2' & ES2 & _ & BS2); [lra|lra|]. specialize (BS2 ltac:(lra)).
  destruct (add_step _ _ s2 t3 S2 T3) as (s3 & S3 & BS3 & ES3 & _); [lra|lra|].
  exists s3. split; [exact S3|]. unfold bil in *. split; [split; [lra|]|]; lra.
Qed.

(** No rounding at all if the offsets are zero *)
Lemma blend_exact p00 p01 p10 p11 dx dy :
  0 <= p00 <= 255 -> 0 <= p01 <= 255 -> 0 <= p10 <= 255 -> 0 <= p11 <= 255 ->
  isd dx 0 -> isd dy 0 -> isd (blend p00 p01 p10 p11 dx dy) (IZR p00).
Proof.
  intros H00 H01 H10 H11 Hx Hy. unfold blend.
  assert (Z : forall p, 0 <= p <= 255 -> isd (d_of_Z p) (IZR p) /\ (0 <= IZR p <= 255)%R).
  { intros p Hp. split; [apply d_of_Z_exact; lia|]. split; apply IZR_le; lia. }
  destruct (Z _ H00) as [I00 B00], (Z _ H01) as [I01 B01], (Z _ H10) as [I10 B10], (Z _ H11) as [I11 B11]. clear Z.
  assert (O : forall z, isd z 0 -> isd (dsub F.d1 z) 1).
  { intros z Hz. pose proof (dsub_R _ _ _ _ isd_d1 Hz) as D. rewrite Rminus_0_r in D. rewrite (rd_IZR 1) in D by lia.
    apply D. apply (bpow_big 1). lia. }
  assert (M1 : forall z p q, isd z (IZR p) -> 0 <= p <= 255 -> isd q 1 -> isd (dmul z q) (IZR p)).
  { intros z p q Hz Hp Hq. pose proof (dmul_R _ _ _ _ Hz Hq) as D. rewrite Rmult_1_r in D. rewrite rd_IZR in D by lia.
    apply D. apply bpow_big. lia. }
  assert (M0 : forall z a q, isd z a -> (Rabs a <= 255)%R -> isd q 0 -> isd (dmul z q) 0).
  { intros z a q Hz Ha Hq. pose proof (dmul_R _ _ _ _ Hz Hq) as D. rewrite Rmult_0_r, rd_0 in D. apply D. rewrite Rabs_R0. apply bpow_ge_0. }
  assert (M0' : forall z q, isd z 0 -> isd q 1 -> isd (dmul z q) 0).
  { intros z q Hz Hq. apply (M1 z 0 q); auto. lia. }
  assert (A0 : forall z p q, isd z (IZR p) -> 0 <= p <= 255 -> isd q 0 -> isd (dadd z q) (IZR p)).
  { intros z p q Hz Hp Hq. pose proof (dadd_R _ _ _ _ Hz Hq) as D. rewrite Rplus_0_r in D. rewrite rd_IZR in D by lia.
    apply D. apply bpow_big. lia. }
  assert (N : forall p, 0 <= p <= 255 -> (Rabs (IZR p) <= 255)%R).
  { intros p Hp. assert (0 <= IZR p)%R by (apply IZR_le; lia). assert (IZR p <= 255)%R by (apply IZR_le; lia). apply Rabs_le. lra. }
  assert (N0 : (Rabs 0 <= 255)%R) by (rewrite Rabs_R0; lra).
  apply A0; auto.
  - apply A0; auto; [apply A0; auto|].
    + apply M0'; auto. apply (M0 _ (IZR p01)); auto.
    + apply (M0 _ (IZR p10)); auto.
  - apply (M0 _ 0%R); auto. apply (M0 _ (IZR p11)); auto.
Qed.

(** ** One pixel *)

Definition wq (m : list f64) (x y : Z) : f64 := row (mc m 6) (mc m 7) (mc m 8) x y.
Definition sx (m : list f64) (x y : Z) : f64 := ddiv (row (mc m 0) (mc m 1) (mc m 2) x y) (wq m x y).
Definition sy (m : list f64) (x y : Z) : f64 := ddiv (row (mc m 3) (mc m 4) (mc m 5) x y) (wq m x y).

Definition off (n i : Z) (q : f64) : f64 := if next n i =? i then d0 else dsub q (d_of_Z i).
Definition inb (w h : Z) (X Y : R) : bool :=
  (0 <=? Zfloor X) && (Zfloor X <? w) && (0 <=? Zfloor Y) && (Zfloor Y <? h).
Definition chan (b : buf Z) (w h : Z) (X Y : R) (qx qy : f64) (c : Z) : Z :=
  if inb w h X Y then
    Btrunc (blend (pixv b w 4 (Zfloor X) (Zfloor Y) c) (pixv b w 4 (next w (Zfloor X)) (Zfloor Y) c)
                  (pixv b w 4 (Zfloor X) (next h (Zfloor Y)) c) (pixv b w 4 (next w (Zfloor X)) (next h (Zfloor Y)) c)
                  (off w (Zfloor X) qx) (off h (Zfloor Y) qy))
  else 0.

Lemma next_range n i : 0 <= i < n -> 0 <= next n i < n.
Proof. unfold next. destruct (Z.ltb_spec (i + 1) n); lia. Qed.

Lemma floor_frac X : (0 <= X - IZR (Zfloor X) < 1)%R.
Proof. pose proof (Zfloor_lb X). pose proof (Zfloor_ub X). lra. Qed.

Lemma off_ok n i q X : isd q X -> i = Zfloor X -> 0 <= i < n -> n <= 2147483647 ->
  exists D, isd (off n i q) D /\ (0 <= D <= 1)%R /\
    (next n i <> i -> (X - IZR i - e53 <= D <= X - IZR i + e53)%R).
Proof.
  intros Hq Hi Hr Hn. unfold off. pose proof (floor_frac X) as F. rewrite <- Hi in F.
  destruct (Z.eqb_spec (next n i) i) as [E|E].
  - exists 0%R. split; [split; reflexivity|]. split; [lra|]. intros; contradiction.
  - exists (rd (X - IZR i)). split; [apply dsub_R; [auto|apply d_of_Z_exact; lia|]; apply (abs_big _ 1); [apply Rabs_le; lra|lia]|].
    split; [split; [apply (rd_ge_Z _ 0)|apply (rd_le_Z _ 1)]; lra || lia|].
    intros _. apply (rd_k _ 0 1%R); [lia|reflexivity|lra|apply Rabs_le; lra].
Qed.

Lemma idx4_ok y w x h : 0 <= x < w -> 0 <= y < h -> w * h * 4 <= 2147483647 -> idx4 y w x = Ok ((y * w + x) * 4).
Proof.
  intros Hx Hy HS. pose proof (rm_bound w h x y Hx Hy). unfold idx4. assert (0 <= y * w) by nia.
  rewrite ck32_ok by (unfold INT_MIN, INT_MAX; lia). cbn [bind].
  rewrite ck32_ok by (unfold INT_MIN, INT_MAX; lia). cbn [bind].
  rewrite ck32_ok by (unfold INT_MIN, INT_MAX; lia). reflexivity.
Qed.

Lemma pixv_load b w h x y c : 0 <= x < w -> 0 <= y < h -> 0 <= c < 4 -> image (w * h * 4) b ->
  load b ((y * w + x) * 4 + c) = Ok (pixv b w 4 x y c) /\ 0 <= pixv b w 4 x y c <= 255.
Proof.
  intros Hx Hy Hc [L G]. pose proof (rm_bound w h x y Hx Hy).
  destruct (G ((y * w + x) * 4 + c) ltac:(lia)) as (v & E & B). unfold pixv, pix. rewrite E. unfold byte in B.
  split; [apply load_ok; auto; lia|lia].
Qed.

Lemma inb_spec w h X Y : inb w h X Y = true <-> within w h X Y.
Proof.
  unfold inb, within. assert (K : forall n Z, (0 <= Zfloor Z < n)%Z <-> (0 <= Z < IZR n)%R).
  { intros n Z. pose proof (Zfloor_lb Z). pose proof (Zfloor_ub Z). split.
    - intros [A B]. apply IZR_le in A. assert (C : Zfloor Z + 1 <= n) by lia. apply IZR_le in C. rewrite plus_IZR in C. lra.
    - intros [A B]. split.
      + apply Zfloor_lub. exact A.
      + apply lt_IZR. lra. }
  rewrite <- !K. rewrite !andb_true_iff. lia.
Qed.

Lemma map_px_ok iw ih ow oh b m x y X Y out :
  0 < iw -> 0 < ih -> iw * ih * 4 <= 2147483647 -> 0 <= x < ow -> 0 <= y < oh -> ow * oh * 4 <= 2147483647 ->
  image (iw * ih * 4) b -> blen out = ow * oh * 4 ->
  dlt (dabs (wq m x y)) (lit 1 10000000000) = false ->
  isd (sx m x y) X -> isd (sy m x y) Y -> (Rabs X <= 2000000000)%R -> (Rabs Y <= 2000000000)%R ->
  (forall c, 0 <= c < 4 -> bget out ((y * ow + x) * 4 + c) = Some 0) ->
  exists out', map_px iw ih ow b m x y out = Ok out' /\ blen out' = ow * oh * 4 /\
    (forall c, 0 <= c < 4 -> bget out' ((y * ow + x) * 4 + c) = Some (chan b iw ih X Y (sx m x y) (sy m x y) c)) /\
    (forall j, j < (y * ow + x) * 4 \/ (y * ow + x) * 4 + 4 <= j -> bget out' j = bget out j).
Proof.
  intros Hiw Hih HiS Hx Hy HoS Hb Lo Hw HX HY BX BY H0. unfold map_px. fold (wq m x y). cbv zeta. fold (sx m x y) (sy m x y). rewrite Hw.
  assert (FB : forall Z, (Rabs Z <= 2000000000)%R -> -2000000000 <= Zfloor Z <= 2000000000).
  { intros Z B. apply Rabs_le_inv in B. split; [apply Zfloor_lub; lra|]. apply le_IZR. pose proof (Zfloor_lb Z). lra. }
  pose proof (FB X BX) as FX. pose proof (FB Y BY) as FY. clear FB.
  assert (CF : forall q Z, isd q Z -> -2000000000 <= Zfloor Z <= 2000000000 -> to_i32 (dfloor q) = Ok (Zfloor Z)).
  { intros q Z Hq B. destruct (cast_int_R INT_MIN INT_MAX _ _ (dfloor_R _ _ Hq)) as [E _]; unfold INT_MIN, INT_MAX; try lia.
    - rewrite <- minus_IZR. apply IZR_lt. lia.
    - rewrite <- plus_IZR. apply IZR_lt. lia.
    - unfold to_i32, INT_MIN, INT_MAX in *. rewrite E. now rewrite Ztrunc_IZR. }
  rewrite (CF _ _ HX FX), (CF _ _ HY FY). cbn [bind]. clear CF.
  rewrite (ck32_ok (Zfloor X + 1)) by (unfold INT_MIN, INT_MAX; lia). cbn [bind].
  rewrite (ck32_ok (Zfloor Y + 1)) by (unfold INT_MIN, INT_MAX; lia). cbn [bind].
  fold (inb iw ih X Y). unfold chan. destruct (inb iw ih X Y) eqn:EI.
  2:{ exists out. auto. }
  assert (B : (0 <= Zfloor X < iw) /\ (0 <= Zfloor Y < ih)) by (unfold inb in EI; rewrite !andb_true_iff in EI; lia).
  destruct B as [Bx By]. clear EI.
  fold (next iw (Zfloor X)) (next ih (Zfloor Y)).
  change (if next iw (Zfloor X) =? Zfloor X then d0 else dsub (sx m x y) (d_of_Z (Zfloor X))) with (off iw (Zfloor X) (sx m x y)).
  change (if next ih (Zfloor Y) =? Zfloor Y then d0 else dsub (sy m x y) (d_of_Z (Zfloor Y))) with (off ih (Zfloor Y) (sy m x y)).
  destruct (off_ok iw (Zfloor X) (sx m x y) X HX eq_refl Bx ltac:(nia)) as (D & HD & RD & _).
  destruct (off_ok ih (Zfloor Y) (sy m x y) Y HY eq_refl By ltac:(nia)) as (E & HE & RE & _).
  set (dx := off iw (Zfloor X) (sx m x y)) in *. set (dy := off ih (Zfloor Y) (sy m x y)) in *.
  pose proof (next_range iw _ Bx) as Nx. pose proof (next_range ih _ By) as Ny.
  set (x0 := Zfloor X) in *. set (y0 := Zfloor Y) in *. set (x1 := next iw x0) in *. set (y1 := next ih y0) in *.
  rewrite (idx4_ok y0 iw x0 ih), (idx4_ok y0 iw x1 ih), (idx4_ok y1 iw x0 ih), (idx4_ok y1 iw x1 ih) by auto. cbn [bind].
  set (v := fun c => Btrunc (blend (pixv b iw 4 x0 y0 c) (pixv b iw 4 x1 y0 c) (pixv b iw 4 x0 y1 c) (pixv b iw 4 x1 y1 c) dx dy)).
  pose proof (rm_bound ow oh x y Hx Hy) as Bp.
  destruct (for_inv (fun k o => blen o = ow * oh * 4 /\
      (forall c, 0 <= c < k -> bget o ((y * ow + x) * 4 + c) = Some (v c)) /\
      (forall j, j < (y * ow + x) * 4 \/ (y * ow + x) * 4 + k <= j -> bget o j = bget out j)) 0 4
    (fun c out =>
      p00 <- load b ((y0 * iw + x0) * 4 + c) ;;
      p01 <- load b ((y0 * iw + x1) * 4 + c) ;;
      p10 <- load b ((y1 * iw + x0) * 4 + c) ;;
      p11 <- load b ((y1 * iw + x1) * 4 + c) ;;
      o <- idx4 y ow x ;;
      o <- ck32 (o + c) ;;
      v <- to_u8 (blend p00 p01 p10 p11 dx dy) ;;
      store out o v) out) as (out' & E' & L' & V' & O').
  - lia.
  - split; auto. split; [intros; lia|]. auto.
  - intros c o Hc (L & V & O).
    destruct (pixv_load b iw ih x0 y0 c Bx By Hc Hb) as [-> R00]. destruct (pixv_load b iw ih x1 y0 c Nx By Hc Hb) as [-> R01].
    destruct (pixv_load b iw ih x0 y1 c Bx Ny Hc Hb) as [-> R10]. destruct (pixv_load b iw ih x1 y1 c Nx Ny Hc Hb) as [-> R11]. cbn [bind].
    rewrite (idx4_ok y ow x oh) by auto. cbn [bind]. rewrite ck32_ok by (unfold INT_MIN, INT_MAX; lia). cbn [bind].
    destruct (blend_ok _ _ _ _ dx dy D E R00 R01 R10 R11 HD HE RD RE) as (r & Hr & Br & _).
    destruct (to_u8_R _ _ Hr ltac:(lra)) as [Eu _]. rewrite Eu. cbn [bind].
    rewrite (store_ok o) by lia. eexists. split; [reflexivity|]. rewrite blen_bset. split; [auto|]. split.
    + intros c' Hc'. rewrite bget_bset. destruct (Z.eqb_spec ((y * ow + x) * 4 + c') ((y * ow + x) * 4 + c)) as [Ec|Ec].
      * assert (c' = c) as -> by lia. unfold v. now rewrite (btrunc_R _ _ Hr).
      * apply V. lia.
    + intros j Hj. rewrite bget_bset. replace (j =? (y * ow + x) * 4 + c) with false by lia. apply O. lia.
  - exists out'. split; [exact E'|]. split; auto.
Qed.

(** What the byte means *)
Lemma chan_shows iw ih b X Y qx qy c : 0 < iw -> 0 < ih -> iw * ih * 4 <= 2147483647 -> image (iw * ih * 4) b ->
  isd qx X -> isd qy Y -> 0 <= c < 4 ->
  0 <= chan b iw ih X Y qx qy c <= 255 /\
  (within iw ih X Y -> (bilinear b iw ih X Y c - 1 - 1 / 1000000 <= IZR (chan b iw ih X Y qx qy c) <= bilinear b iw ih X Y c + 1 / 1000000)%R) /\
  (~ within iw ih X Y -> chan b iw ih X Y qx qy c = 0).
Proof.
  intros Hiw Hih HS Hb HX HY Hc. unfold chan. destruct (inb iw ih X Y) eqn:EI.
  2:{ split; [lia|]. split; auto. intros W. apply inb_spec in W. congruence. }
  assert (B : (0 <= Zfloor X < iw) /\ (0 <= Zfloor Y < ih)) by (unfold inb in EI; rewrite !andb_true_iff in EI; lia).
  destruct B as [Bx By]. apply inb_spec in EI.
  destruct (off_ok iw (Zfloor X) qx X HX eq_refl Bx ltac:(nia)) as (D & HD & RD & ND).
  destruct (off_ok ih (Zfloor Y) qy Y HY eq_refl By ltac:(nia)) as (E & HE & RE & NE).
  pose proof (next_range iw _ Bx) as Nx. pose proof (next_range ih _ By) as Ny.
  unfold bilinear. cbv zeta.
  set (x0 := Zfloor X) in *. set (y0 := Zfloor Y) in *.
  destruct (pixv_load b iw ih x0 y0 c Bx By Hc Hb) as [_ R00]. destruct (pixv_load b iw ih (next iw x0) y0 c Nx By Hc Hb) as [_ R01].
  destruct (pixv_load b iw ih x0 (next ih y0) c Bx Ny Hc Hb) as [_ R10]. destruct (pixv_load b iw ih (next iw x0) (next ih y0) c Nx Ny Hc Hb) as [_ R11].
  destruct (blend_ok _ _ _ _ _ _ D E R00 R01 R10 R11 HD HE RD RE) as (r & Hr & Br & Er).
  rewrite (btrunc_R _ _ Hr). destruct (to_u8_R _ _ Hr ltac:(lra)) as [_ T]. split; [lia|].
  split; [|intros W; contradiction]. intros _.
  pose proof (floor_frac X) as FX. pose proof (floor_frac Y) as FY. fold x0 in FX. fold y0 in FY.
  assert (Tr : (r - 1 < IZR (Ztrunc r) <= r)%R).
  { rewrite Ztrunc_floor by lra. pose proof (Zfloor_lb r). pose proof (Zfloor_ub r). lra. }
  set (fx := (X - IZR x0)%R) in *. set (fy := (Y - IZR y0)%R) in *.
  assert (Z : forall p, 0 <= p <= 255 -> (0 <= IZR p <= 255)%R) by (intros p Hp; split; apply IZR_le; lia).
  set (p00 := IZR (pixv b iw 4 x0 y0 c)) in *. set (p01 := IZR (pixv b iw 4 (next iw x0) y0 c)) in *.
  set (p10 := IZR (pixv b iw 4 x0 (next ih y0) c)) in *. set (p11 := IZR (pixv b iw 4 (next iw x0) (next ih y0) c)) in *.
  apply Z in R00, R01, R10, R11. fold p00 in R00. fold p01 in R01. fold p10 in R10. fold p11 in R11.
  assert (HDx : (fx - e53 <= D <= fx + e53)%R \/ (p00 = p01 /\ p10 = p11)).
  { destruct (Z.eq_dec (next iw x0) x0) as [E0|E0]; [right|left; auto]. unfold p00, p01, p10, p11. now rewrite E0. }
  assert (HEy : (fy - e53 <= E <= fy + e53)%R \/ (p00 = p10 /\ p01 = p11)).
  { destruct (Z.eq_dec (next ih y0) y0) as [E0|E0]; [right|left; auto]. unfold p00, p01, p10, p11. now rewrite E0. }
  assert (C : (Rabs (bil p00 p01 p10 p11 D E - bil p00 p01 p10 p11 fx fy) <= 1 / 10000000)%R).
  { clear - HDx HEy RD RE FX FY R00 R01 R10 R11.
    assert (P1 : (Rabs (bil p00 p01 p10 p11 D E - bil p00 p01 p10 p11 fx E) <= 1 / 20000000)%R).
    { replace (bil p00 p01 p10 p11 D E - bil p00 p01 p10 p11 fx E)%R with ((D - fx) * ((p01 - p00) * (1 - E) + (p11 - p10) * E))%R by (unfold bil; ring).
      destruct HDx as [HDx|[-> ->]]; [|match goal with |- (Rabs ?t <= _)%R => replace t with 0%R by ring end; rewrite Rabs_R0; lra].
      assert (Q : (-255 <= (p01 - p00) * (1 - E) + (p11 - p10) * E <= 255)%R) by (split; nra).
      set (q := ((p01 - p00) * (1 - E) + (p11 - p10) * E)%R) in *. clearbody q. apply Rabs_le. split; nra. }
    assert (P2 : (Rabs (bil p00 p01 p10 p11 fx E - bil p00 p01 p10 p11 fx fy) <= 1 / 20000000)%R).
    { replace (bil p00 p01 p10 p11 fx E - bil p00 p01 p10 p11 fx fy)%R with ((E - fy) * ((p10 - p00) * (1 - fx) + (p11 - p01) * fx))%R by (unfold bil; ring).
      destruct HEy as [HEy|[-> ->]]; [|match goal with |- (Rabs ?t <= _)%R => replace t with 0%R by ring end; rewrite Rabs_R0; lra].
      assert (Q : (-255 <= (p10 - p00) * (1 - fx) + (p11 - p01) * fx <= 255)%R) by (split; nra).
      set (q := ((p10 - p00) * (1 - fx) + (p11 - p01) * fx)%R) in *. clearbody q. apply Rabs_le. split; nra. }
    apply Rabs_le_inv in P1, P2. apply Rabs_le. lra. }
  apply Rabs_le_inv in C. change (p00 * (1 - fx) * (1 - fy) + p01 * fx * (1 - fy) + p10 * (1 - fx) * fy + p11 * fx * fy)%R with (bil p00 p01 p10 p11 fx fy).
  clear - C Er Tr. lra.
Qed.

(** At an exact pixel position the byte is copied. *)
Lemma chan_exact iw ih b i j qx qy c : 0 < iw -> 0 < ih -> iw * ih * 4 <= 2147483647 -> image (iw * ih * 4) b ->
  isd qx (IZR i) -> isd qy (IZR j) -> 0 <= c < 4 ->
  chan b iw ih (IZR i) (IZR j) qx qy c = if (0 <=? i) && (i <? iw) && (0 <=? j) && (j <? ih) then pixv b iw 4 i j c else 0.
Proof.
  intros Hiw Hih HS Hb HX HY Hc. unfold chan, inb. rewrite !Zfloor_IZR.
  destruct ((0 <=? i) && (i <? iw) && (0 <=? j) && (j <? ih)) eqn:EI; auto.
  assert (B : (0 <= i < iw) /\ (0 <= j < ih)) by (rewrite !andb_true_iff in EI; lia). destruct B as [Bx By].
  pose proof (next_range iw _ Bx) as Nx. pose proof (next_range ih _ By) as Ny.
  assert (Z : forall n k q, isd q (IZR k) -> 0 <= k < n -> n <= 2147483647 -> isd (off n k q) 0).
  { intros n k q Hq Hk Hn. unfold off. destruct (_ =? _); [split; reflexivity|].
    pose proof (dsub_R _ _ _ _ Hq (d_of_Z_exact k ltac:(lia))) as D. rewrite Rminus_diag_eq, rd_0 in D by reflexivity.
    apply D. rewrite Rabs_R0. apply bpow_ge_0. }
  pose proof (blend_exact (pixv b iw 4 i j c) (pixv b iw 4 (next iw i) j c) (pixv b iw 4 i (next ih j) c) (pixv b iw 4 (next iw i) (next ih j) c)
    (off iw i qx) (off ih j qy)) as BE.
  erewrite btrunc_R; [apply Ztrunc_IZR|]. apply BE; try (eapply pixv_load; eauto); apply Z; auto; nia.
Qed.

(** ** Coordinates *)

Lemma row_err k a b c ra rb rc x y :
  0 <= k <= 40 -> isd a ra -> isd b rb -> isd c rc -> Z.abs x <= 32768 -> Z.abs y <= 32768 ->
  (Rabs (ra * IZR x) <= bpow radix2 k)%R -> (Rabs (rb * IZR y) <= bpow radix2 k)%R -> (Rabs rc <= bpow radix2 k)%R ->
  exists r, isd (row a b c x y) r /\ (Rabs (r - (ra * IZR x + rb * IZR y + rc)) <= bpow radix2 (k - 50))%R /\
    (Rabs r <= bpow radix2 (k + 2))%R.
Proof.
  intros Hk Ha Hb Hc Hx Hy Bx By Bc. unfold row.
  assert (P0 : (0 < bpow radix2 k)%R) by apply bpow_gt_0.
  assert (BK : (bpow radix2 (k + 2) <= bpow radix2 1000)%R) by (apply bpow_le; lia).
  assert (E1 : bpow radix2 (k + 1) = (2 * bpow radix2 k)%R) by (rewrite bpow_plus; change (bpow radix2 1) with 2%R; ring).
  assert (E2 : bpow radix2 (k + 2) = (4 * bpow radix2 k)%R) by (rewrite bpow_plus; change (bpow radix2 2) with 4%R; ring).
  assert (E3 : bpow radix2 (k - 50) = (bpow radix2 k / 1125899906842624)%R) by (unfold Z.sub; rewrite bpow_plus; change (bpow radix2 (-50)) with (/ 1125899906842624)%R; reflexivity).
  assert (E4 : bpow radix2 (k - 53) = (bpow radix2 k / 9007199254740992)%R) by (unfold Z.sub; rewrite bpow_plus; change (bpow radix2 (-53)) with (/ 9007199254740992)%R; reflexivity).
  assert (Rb : forall t j, 0 <= j <= 42 -> (Rabs t <= bpow radix2 j)%R -> (Rabs (rd t) <= bpow radix2 j)%R).
  { intros t j Hj B. replace (bpow radix2 j) with (IZR (2 ^ j)) in * by (change 2 with (radix_val radix2); rewrite IZR_Zpower by lia; reflexivity).
    assert (0 < 2 ^ j <= 2 ^ 42) by (split; [apply Z.pow_pos_nonneg; lia|apply Z.pow_le_mono_r; lia]).
    change (2 ^ 42) with 4398046511104 in *. apply Rabs_le_inv in B. apply Rabs_le. split.
    - rewrite <- opp_IZR. apply rd_ge_Z; [rewrite opp_IZR; lra|lia].
    - apply rd_le_Z; [lra|lia]. }
  assert (S1 : isd (dmul a (d_of_Z x)) (rd (ra * IZR x))) by (apply dmul_R; [auto|apply d_of_Z_exact; lia|lra]).
  assert (S2 : isd (dmul b (d_of_Z y)) (rd (rb * IZR y))) by (apply dmul_R; [auto|apply d_of_Z_exact; lia|lra]).
  pose proof (Rb _ k ltac:(lia) Bx) as B1. pose proof (Rb _ k ltac:(lia) By) as B2.
  pose proof (rd_err _ k ltac:(lia) Bx) as R1. pose proof (rd_err _ k ltac:(lia) By) as R2.
  set (p := rd (ra * IZR x)) in *. set (q := rd (rb * IZR y)) in *.
  assert (B3' : (Rabs (p + q) <= bpow radix2 (k + 1))%R).
  { rewrite E1. eapply Rle_trans; [apply Rabs_triang|lra]. }
  assert (S3 : isd (dadd (dmul a (d_of_Z x)) (dmul b (d_of_Z y))) (rd (p + q))) by (apply dadd_R; auto; lra).
  pose proof (Rb _ (k + 1) ltac:(lia) B3') as B3. pose proof (rd_err _ (k + 1) ltac:(lia) B3') as R3.
  set (t := rd (p + q)) in *.
  assert (B4' : (Rabs (t + rc) <= bpow radix2 (k + 2))%R).
  { rewrite E2. rewrite E1 in B3. eapply Rle_trans; [apply Rabs_triang|lra]. }
  exists (rd (t + rc)). split; [apply dadd_R; auto; lra|].
  pose proof (Rb _ (k + 2) ltac:(lia) B4') as B4. pose proof (rd_err _ (k + 2) ltac:(lia) B4') as R4.
  split; [|exact B4].
  replace (k + 1 - 53) with (1 + (k - 53)) in R3 by ring. rewrite bpow_plus in R3. change (bpow radix2 1) with 2%R in R3.
  replace (k + 2 - 53) with (2 + (k - 53)) in R4 by ring. rewrite bpow_plus in R4. change (bpow radix2 2) with 4%R in R4.
  rewrite E4 in *. rewrite E3. set (u := bpow radix2 k) in *. clearbody u p q t.
  apply Rabs_le_inv in R1, R2, R3, R4. apply Rabs_le. lra.
Qed.

Lemma div_err N W N' W' X : (1 / 1024 <= Rabs W)%R -> (X = N / W)%R ->
  (Rabs (N' - N) <= 1 / 33554432)%R -> (Rabs (W' - W) <= 1 / 17179869184)%R ->
  (W' <> 0 /\ 1 / 2000 <= Rabs W' /\ Rabs (N' / W' - X) <= 1 / 15000 + Rabs X / 8000000)%R.
Proof.
  intros HW EX HN HW'.
  assert (AW : (1 / 1024 - 1 / 17179869184 <= Rabs W')%R).
  { pose proof (Rabs_triang_inv W (W - W')) as T. replace (W - (W - W'))%R with W' in T by ring.
    rewrite (Rabs_minus_sym W W') in T. lra. }
  assert (NZ : W' <> 0%R) by (intros Z; rewrite Z, Rabs_R0 in AW; lra).
  assert (NZ0 : W <> 0%R) by (intros Z; rewrite Z, Rabs_R0 in HW; lra).
  split; auto. split; [lra|].
  assert (ED : (N' / W' - X = ((N' - N) - X * (W' - W)) / W')%R).
  { rewrite EX. field. auto. }
  rewrite ED. unfold Rdiv at 1. rewrite Rabs_mult, Rabs_inv.
  assert (T : (Rabs ((N' - N) - X * (W' - W)) <= 1 / 33554432 + Rabs X * (1 / 17179869184))%R).
  { unfold Rminus at 1. eapply Rle_trans; [apply Rabs_triang|]. rewrite Rabs_Ropp, Rabs_mult.
    apply Rplus_le_compat; auto. apply Rmult_le_compat_l; auto. apply Rabs_pos. }
  assert (I : (/ Rabs W' <= 2000)%R).
  { replace 2000%R with (/ (1 / 2000))%R by field. apply Rinv_le; lra. }
  assert (0 < / Rabs W')%R by (apply Rinv_0_lt_compat; lra). pose proof (Rabs_pos X).
  apply Rle_trans with ((1 / 33554432 + Rabs X * (1 / 17179869184)) * 2000)%R; [|lra].
  apply Rmult_le_compat; auto; try lra. apply Rabs_pos.
Qed.

Lemma coord_ok p q N' W' N W X : isd p N' -> isd q W' -> (1 / 1024 <= Rabs W)%R -> (X = N / W)%R -> (Rabs X <= 1000000000)%R ->
  (Rabs (N' - N) <= 1 / 33554432)%R -> (Rabs (W' - W) <= 1 / 17179869184)%R ->
  exists X', isd (ddiv p q) X' /\ (Rabs (X' - X) <= (1 + Rabs X) / 10000)%R /\ (Rabs X' <= 2000000000)%R.
Proof.
  intros Hp Hq HW EX BX HN HW'. destruct (div_err N W N' W' X HW EX HN HW') as (NZ & _ & E).
  pose proof (Rabs_pos X). set (z := (N' / W')%R) in *.
  assert (Bz : (Rabs z <= 1500000000)%R).
  { replace z with ((z - X) + X)%R by ring. eapply Rle_trans; [apply Rabs_triang|]. lra. }
  exists (rd z). split; [apply ddiv_R; auto; apply (abs_big _ 1500000000); [exact Bz|lia]|].
  assert (N0 := rd_e31 z ltac:(lra)). assert (D : (Rabs (rd z - z) <= 1 / 4194304)%R) by (apply Rabs_le; lra).
  split.
  - replace (rd z - X)%R with ((rd z - z) + (z - X))%R by ring. eapply Rle_trans; [apply Rabs_triang|]. lra.
  - replace (rd z) with ((rd z - z) + z)%R by ring. eapply Rle_trans; [apply Rabs_triang|]. lra.
Qed.

Lemma mc_entry m i : matrix m -> (i < 9)%nat -> isd (mc m i) (entry m i).
Proof.
  intros [L F] Hi. unfold mc, entry. apply isd_finite. rewrite Forall_forall in F. apply F. apply nth_In. lia.
Qed.

Lemma eps_R : exists e, isd (lit 1 10000000000) e /\ (e <= 1 / 9000000000)%R.
Proof.
  exists (rd (1 / 10000000000))%R. split.
  - unfold lit. apply ddiv_R; try apply d_of_Z_exact; try lia; try lra. apply (abs_big _ 1); [apply Rabs_le; lra|lia].
  - pose proof (rd_k (1 / 10000000000)%R 0 1%R (1 / 9007199254740992)%R ltac:(lia) eq_refl eq_refl ltac:(apply Rabs_le; lra)). lra.
Qed.

Lemma Rabs_mul_le a b A B : (Rabs a <= A)%R -> (Rabs b <= B)%R -> (Rabs (a * b) <= A * B)%R.
Proof. intros. rewrite Rabs_mult. apply Rmult_le_compat; auto; apply Rabs_pos. Qed.

Lemma tame_coords m ow oh x y : tame m ow oh -> ow <= 32768 -> oh <= 32768 -> 0 <= x < ow -> 0 <= y < oh ->
  dlt (dabs (wq m x y)) (lit 1 10000000000) = false /\
  exists X Y, isd (sx m x y) X /\ isd (sy m x y) Y /\ (Rabs X <= 2000000000)%R /\ (Rabs Y <= 2000000000)%R /\
    (Rabs (X - map_x m x y) <= (1 + Rabs (map_x m x y)) / 10000)%R /\ (Rabs (Y - map_y m x y) <= (1 + Rabs (map_y m x y)) / 10000)%R.
Proof.
  intros (Hm & A1 & A2 & A3 & A4) Hw Hh Hx Hy. destruct (A4 x y Hx Hy) as (S & MX & MY).
  assert (Bx : (Rabs (IZR x) <= 32768)%R) by (rewrite <- abs_IZR; apply IZR_le; lia).
  assert (By : (Rabs (IZR y) <= 32768)%R) by (rewrite <- abs_IZR; apply IZR_le; lia).
  assert (P16 : bpow radix2 16 = 65536%R) by reflexivity. assert (P25 : bpow radix2 25 = 33554432%R) by reflexivity.
  assert (M16 : bpow radix2 (16 - 50) = (1 / 17179869184)%R) by (change (16 - 50) with (-34); cbn [bpow]; change (Z.pow_pos radix2 34) with 17179869184; lra).
  assert (M25 : bpow radix2 (25 - 50) = (1 / 33554432)%R) by (change (25 - 50) with (-25); cbn [bpow]; change (Z.pow_pos radix2 25) with 33554432; lra).
  destruct (row_err 16 (mc m 6) (mc m 7) (mc m 8) (entry m 6) (entry m 7) (entry m 8) x y) as (W' & HW & EW & _); try (apply mc_entry; auto; lia); try lia.
  { rewrite P16. replace 65536%R with (2 * 32768)%R by lra. apply Rabs_mul_le; auto. }
  { rewrite P16. replace 65536%R with (2 * 32768)%R by lra. apply Rabs_mul_le; auto. }
  { rewrite P16. eapply Rle_trans; [apply A3; auto|lra]. }
  destruct (row_err 25 (mc m 0) (mc m 1) (mc m 2) (entry m 0) (entry m 1) (entry m 2) x y) as (NX & HNX & EX & _); try (apply mc_entry; auto; lia); try lia.
  { rewrite P25. replace 33554432%R with (1024 * 32768)%R by lra. apply Rabs_mul_le; auto. }
  { rewrite P25. replace 33554432%R with (1024 * 32768)%R by lra. apply Rabs_mul_le; auto. }
  { rewrite P25. eapply Rle_trans; [apply A2; auto|lra]. }
  destruct (row_err 25 (mc m 3) (mc m 4) (mc m 5) (entry m 3) (entry m 4) (entry m 5) x y) as (NY & HNY & EY & _); try (apply mc_entry; auto; lia); try lia.
  { rewrite P25. replace 33554432%R with (1024 * 32768)%R by lra. apply Rabs_mul_le; auto. }
  { rewrite P25. replace 33554432%R with (1024 * 32768)%R by lra. apply Rabs_mul_le; auto. }
  { rewrite P25. eapply Rle_trans; [apply A2; auto|lra]. }
  rewrite M16 in EW. rewrite M25 in EX, EY.
  fold (scale_at m x y) in EW. fold (wq m x y) in HW.
  destruct (coord_ok _ _ NX W' _ _ (map_x m x y) HNX HW S eq_refl MX EX EW) as (X & HX & RX & BX').
  destruct (coord_ok _ _ NY W' _ _ (map_y m x y) HNY HW S eq_refl MY EY EW) as (Y & HY & RY & BY').
  split.
  - destruct eps_R as (e & He & Be). rewrite (dlt_R _ _ _ _ (dabs_R _ _ HW) He). apply Rlt_bool_false.
    destruct (div_err _ _ _ _ (map_x m x y) S eq_refl EX EW) as (_ & W2 & _). lra.
  - exists X, Y. auto 10.
Qed.

(** ** The whole function *)

Definition chan_at (b : buf Z) (iw ih : Z) (m : list f64) (x y c : Z) : Z :=
  chan b iw ih (B2R (sx m x y)) (B2R (sy m x y)) (sx m x y) (sy m x y) c.

Definition good_px (m : list f64) (x y : Z) : Prop :=
  dlt (dabs (wq m x y)) (lit 1 10000000000) = false /\
  is_finite (sx m x y) = true /\ is_finite (sy m x y) = true /\
  (Rabs (B2R (sx m x y)) <= 2000000000)%R /\ (Rabs (B2R (sy m x y)) <= 2000000000)%R.

Lemma map_loop_ok iw ih ow oh b m :
  0 < iw -> 0 < ih -> iw * ih * 4 <= 2147483647 -> 0 < ow -> 0 < oh -> ow * oh * 4 <= 2147483647 ->
  image (iw * ih * 4) b -> (forall x y, 0 <= x < ow -> 0 <= y < oh -> good_px m x y) ->
  exists b', map_loop iw ih ow oh b m (bconst (ow * oh * 4) 0) = Ok b' /\ blen b' = ow * oh * 4 /\
    forall x y c, 0 <= x < ow -> 0 <= y < oh -> 0 <= c < 4 -> pix b' ow 4 x y c = Some (chan_at b iw ih m x y c).
Proof.
  intros Hiw Hih HiS How Hoh HoS Hb HG. unfold map_loop.
  apply (loop2d_zeroed 4 ow oh (chan_at b iw ih m) (fun x y o => map_px iw ih ow b m x y o)); auto; try lia.
  intros x y o Hx Hy L Z. destruct (HG x y Hx Hy) as (G1 & G2 & G3 & G4 & G5).
  apply (map_px_ok iw ih ow oh b m x y (B2R (sx m x y)) (B2R (sy m x y)) o); auto; apply isd_finite; auto.
Qed.

Lemma chan_byte b iw ih m x y c : 0 < iw -> 0 < ih -> iw * ih * 4 <= 2147483647 -> image (iw * ih * 4) b ->
  good_px m x y -> 0 <= c < 4 -> byte (chan_at b iw ih m x y c).
Proof.
  intros Hiw Hih HS Hb (_ & G2 & G3 & _) Hc. unfold byte.
  destruct (chan_shows iw ih b _ _ _ _ c Hiw Hih HS Hb (isd_finite _ G2) (isd_finite _ G3) Hc) as [B _]. unfold chan_at. lia.
Qed.

Lemma pix_image b w h (v : Z -> Z -> Z -> Z) : 0 < w -> 0 < h -> blen b = w * h * 4 ->
  (forall x y c, 0 <= x < w -> 0 <= y < h -> 0 <= c < 4 -> pix b w 4 x y c = Some (v x y c) /\ byte (v x y c)) ->
  exact_image (w * h * 4) b.
Proof.
  intros Hw Hh L H. split; auto. split; [lia|]. intros i Hi.
  assert (Hp : 0 <= i / 4 < w * h) by (split; [apply Z.div_pos; lia|apply Z.div_lt_upper_bound; lia]).
  destruct (H ((i / 4) mod w) ((i / 4) / w) (i mod 4)) as [E B].
  - apply Z.mod_pos_bound; lia.
  - split; [apply Z.div_pos; lia|apply Z.div_lt_upper_bound; nia].
  - apply Z.mod_pos_bound; lia.
  - unfold pix in E. replace (((i / 4) / w * w + (i / 4) mod w) * 4 + i mod 4) with i in E.
    + eauto.
    + pose proof (Z.div_mod (i / 4) w ltac:(lia)). pose proof (Z.div_mod i 4 ltac:(lia)). nia.
Qed.

Lemma get_mat_ok s i m : mem s i = Some (OMat m) -> get_mat (Ptr i) s = Ok (m, s).
Proof. unfold get_mat, bindM, get_obj; intros ->; reflexivity. Qed.

(** Guards *)
Lemma guards_ok iw ih ow oh d t :
  0 < iw -> 0 < ih -> 0 < ow -> 0 < oh -> ow * oh * 4 <= 2147483647 ->
  apply_matrix_3x3 iw ih (Ptr d) ow oh (Ptr t) =
  (m <-- get_mat (Ptr t) ;;
   _ <-- match patch iw ih m with Some m' => put_obj (Ptr t) (OMat m') | None => ret tt end ;;
   out_data <-- alloc (OBytes (bconst (ow * oh * 4) 0)) ;;
   if is_null out_data then ret Null else
   m <-- get_mat (Ptr t) ;;
   src <-- get_bytes (Ptr d) ;;
   out <-- get_bytes out_data ;;
   out <-- lift (map_loop iw ih ow oh src m out) ;;
   _ <-- put_bytes out_data out ;;
   ret out_data).
Proof.
  intros. unfold apply_matrix_3x3. cbn [is_null orb].
  replace (iw <=? 0) with false by lia. replace (ih <=? 0) with false by lia.
  replace (ow <=? 0) with false by lia. replace (oh <=? 0) with false by lia. cbn [orb].
  assert (0 < ow * oh) by nia.
  assert (SIZE_MAX / oh <? ow = false) as ->.
  { unfold SIZE_MAX; apply Z.ltb_ge. apply Z.div_le_lower_bound; nia. }
  cbv zeta. rewrite (u64_small (ow * oh)) by lia.
  replace (SIZE_MAX / 4 <? ow * oh) with false by (symmetry; apply Z.ltb_ge; apply Z.div_le_lower_bound; unfold SIZE_MAX; lia).
  rewrite u64_small by lia. reflexivity.
Qed.

(** The run, from the state after the matrix was patched *)
Lemma apply_tail iw ih ow oh d t s m b b' (P : buf Z -> Prop) :
  wf s -> mem s d = Some (OBytes b) -> mem s t = Some (OMat m) ->
  map_loop iw ih ow oh b m (bconst (ow * oh * 4) 0) = Ok b' -> P b' ->
  returns_fresh s
  ((out_data <-- alloc (OBytes (bconst (ow * oh * 4) 0)) ;;
   if is_null out_data then ret Null else
   m <-- get_mat (Ptr t) ;;
   src <-- get_bytes (Ptr d) ;;
   out <-- get_bytes out_data ;;
   out <-- lift (map_loop iw ih ow oh src m out) ;;
   _ <-- put_bytes out_data out ;;
   ret out_data) s) P.
Proof.
  intros Hwf Hd Ht E HP. pose proof (holds_lt s d _ Hwf Hd) as Ld. pose proof (holds_lt s t _ Hwf Ht) as Lt.
  halloc EA OA; [auto| |].
  - unfold ret. eexists _, _. split; [reflexivity|]. split; [later_tac Hwf|]. split; [mem_same Hwf|].
    exists (tick s). cbn [tick]. split; [lia|auto].
  - erewrite bindM_Ok; [|apply get_mat_ok; mem_lookup]. cbv beta. hget. hget. hlift E. hput. unfold ret.
    eexists _, _. split; [reflexivity|]. split; [later_tac Hwf|]. split; [apply Hwf; lia|]. split.
    + exists b'. split; auto. mem_lookup.
    + mem_same Hwf.
Qed.

Lemma small_R : exists e, isd (lit 1 1000000000) e /\ (0 < e < 1 / 900000000)%R.
Proof.
  exists (rd (1 / 1000000000))%R. split.
  - unfold lit. apply ddiv_R; try apply d_of_Z_exact; try lia; try lra. apply (abs_big _ 1); [apply Rabs_le; lra|lia].
  - pose proof (rd_k (1 / 1000000000)%R 0 1%R (1 / 9007199254740992)%R ltac:(lia) eq_refl eq_refl ltac:(apply Rabs_le; lra)). lra.
Qed.

Lemma no_patch iw ih m : matrix m -> (Rabs (entry m 0) <= 1000000)%R -> (Rabs (entry m 4) <= 1000000)%R -> ~ half_turn m -> patch iw ih m = None.
Proof.
  intros Hm B0 B4 H. unfold patch.
  destruct (_ && _) eqn:E; auto. exfalso. apply H. rewrite !andb_true_iff in E. destruct E as [[[E1 E2] E3] E4].
  destruct small_R as (e & He & Be).
  assert (K : forall i, (i < 9)%nat -> (Rabs (entry m i) <= 1000000)%R -> dlt (dabs (dadd (mc m i) F.d1)) (lit 1 1000000000) = true -> (Rabs (entry m i + 1) < 1 / 100000000)%R).
  { intros i Hi Bi Ei. pose proof (mc_entry m i Hm Hi) as Hmi. apply Rabs_le_inv in Bi.
    assert (D : isd (dadd (mc m i) F.d1) (rd (entry m i + 1))).
    { apply dadd_R; auto; [apply isd_d1|]. apply (abs_big _ 1000001); [apply Rabs_le; lra|lia]. }
    rewrite (dlt_R _ _ _ _ (dabs_R _ _ D) He) in Ei. destruct (Rlt_bool_spec (Rabs (rd (entry m i + 1))) e) as [L|L]; [|discriminate].
    assert (N := rd_k (entry m i + 1)%R 20 1048576%R (1048576 / 9007199254740992)%R ltac:(lia) eq_refl eq_refl ltac:(apply Rabs_le; lra)).
    apply Rabs_lt_inv in L. apply Rabs_lt. lra. }
  assert (Z : forall i, (i < 9)%nat -> deq (mc m i) d0 = true -> entry m i = 0%R).
  { intros i Hi Ei. rewrite (deq_R _ _ _ _ (mc_entry m i Hm Hi) isd_d0) in Ei.
    destruct (Req_bool_spec (entry m i) 0); [auto|discriminate]. }
  split; [apply Z; auto; lia|]. split; [apply Z; auto; lia|]. split; apply K; auto; lia.
Qed.

Lemma apply_matrix_ok iw ih ow oh s p pm b m :
  0 < iw -> 0 < ih -> iw * ih * 4 <= 2147483647 -> 0 < ow <= 32768 -> 0 < oh <= 32768 -> ow * oh * 4 <= 2147483647 ->
  wf s -> holds s p b -> image (iw * ih * 4) b -> holds_mat s pm m -> tame m ow oh -> ~ half_turn m ->
  returns_fresh s (apply_matrix_3x3 iw ih p ow oh pm s) (fun b' => exact_image (ow * oh * 4) b' /\
    forall x y, 0 <= x < ow -> 0 <= y < oh -> exists X Y,
      (Rabs (X - map_x m x y) <= (1 + Rabs (map_x m x y)) / 10000)%R /\
      (Rabs (Y - map_y m x y) <= (1 + Rabs (map_y m x y)) / 10000)%R /\
      shows b iw ih X Y b' ow x y).
Proof.
  intros Hiw Hih HiS How Hoh HoS Hwf [d [-> Hd]] Hb [t [-> Ht]] HT HH.
  assert (G : forall x y, 0 <= x < ow -> 0 <= y < oh -> good_px m x y).
  { intros x y Hx Hy. destruct (tame_coords m ow oh x y HT ltac:(lia) ltac:(lia) Hx Hy) as (W & X & Y & [F1 V1] & [F2 V2] & B1 & B2 & _).
    unfold good_px. rewrite V1, V2. auto. }
  destruct (map_loop_ok iw ih ow oh b m) as (b' & E & L & P); auto; try lia.
  rewrite guards_ok by lia. erewrite bindM_Ok; [|apply get_mat_ok; exact Ht]. cbv beta.
  pose proof HT as (Hm & A1 & _). rewrite no_patch; auto.
  2:{ eapply Rle_trans; [apply A1; auto|lra]. } 2:{ eapply Rle_trans; [apply A1; auto|lra]. }
  unfold bindM at 1. unfold ret at 1. cbv iota beta.
  apply (apply_tail iw ih ow oh d t s m b b'); auto. split.
  - apply (pix_image _ _ _ (chan_at b iw ih m)); auto; try lia. intros x y c Hx Hy Hc. split; auto. apply chan_byte; auto.
  - intros x y Hx Hy. destruct (tame_coords m ow oh x y HT ltac:(lia) ltac:(lia) Hx Hy) as (W & X & Y & HX & HY & B1 & B2 & R1 & R2).
    exists X, Y. split; auto. split; auto. intros c Hc. exists (chan_at b iw ih m x y c). split; auto.
    unfold chan_at. destruct HX as [F1 V1], HY as [F2 V2]. rewrite V1, V2.
    apply (chan_shows iw ih b X Y); auto; split; auto.
Qed.

(** ** Exact copies *)

Lemma row_int a b c p q r x y : isd a (IZR p) -> isd b (IZR q) -> isd c (IZR r) ->
  Z.abs p <= 32768 -> Z.abs q <= 32768 -> Z.abs r <= 1073741824 -> 0 <= x < 32768 -> 0 <= y < 32768 ->
  isd (row a b c x y) (IZR (p * x + q * y + r)).
Proof.
  intros Ha Hb Hc Bp Bq Br Hx Hy. unfold row.
  assert (Z.abs (p * x) <= 32768 * 32768) by (rewrite Z.abs_mul; apply Z.mul_le_mono_nonneg; lia).
  assert (Z.abs (q * y) <= 32768 * 32768) by (rewrite Z.abs_mul; apply Z.mul_le_mono_nonneg; lia).
  change (32768 * 32768) with 1073741824 in *.
  assert (K : forall z, Z.abs z <= 4294967296 -> (Rabs (IZR z) <= bpow radix2 1000)%R).
  { intros z Hz. apply (abs_big _ 4294967296); [rewrite <- abs_IZR; apply IZR_le; lia|lia]. }
  assert (S1 : isd (dmul a (d_of_Z x)) (IZR (p * x))).
  { rewrite <- (rd_IZR (p * x)) by lia. rewrite mult_IZR. apply dmul_R; [auto|apply d_of_Z_exact; lia|]. rewrite <- mult_IZR. apply K; lia. }
  assert (S2 : isd (dmul b (d_of_Z y)) (IZR (q * y))).
  { rewrite <- (rd_IZR (q * y)) by lia. rewrite mult_IZR. apply dmul_R; [auto|apply d_of_Z_exact; lia|]. rewrite <- mult_IZR. apply K; lia. }
  assert (S3 : isd (dadd (dmul a (d_of_Z x)) (dmul b (d_of_Z y))) (IZR (p * x + q * y))).
  { rewrite <- (rd_IZR (p * x + q * y)) by lia. rewrite plus_IZR. apply dadd_R; auto. rewrite <- plus_IZR. apply K; lia. }
  rewrite <- (rd_IZR (p * x + q * y + r)) by lia. rewrite plus_IZR. apply dadd_R; auto. rewrite <- plus_IZR. apply K; lia.
Qed.

Lemma moves_coords m a b c d e f x y : moves m a b c d e f -> small6 a b c d e f -> 0 <= x < 32768 -> 0 <= y < 32768 ->
  good_px m x y /\ isd (sx m x y) (IZR (a * x + b * y + c)) /\ isd (sy m x y) (IZR (d * x + e * y + f)).
Proof.
  intros (Hm & M0 & M1 & M2 & M3 & M4 & M5 & M6 & M7 & M8) (B0 & B1 & B2 & B3 & B4 & B5) Hx Hy.
  assert (I : forall i v, (i < 9)%nat -> entry m i = v -> isd (mc m i) v) by (intros i v Hi <-; apply mc_entry; auto).
  assert (HW : isd (wq m x y) 1).
  { pose proof (row_int (mc m 6) (mc m 7) (mc m 8) 0 0 1 x y) as K.
    replace (0 * x + 0 * y + 1) with 1 in K by ring. apply K; auto; try apply I; auto; lia. }
  assert (D : forall p v, isd p (IZR v) -> Z.abs v <= 4000000000 -> isd (ddiv p (wq m x y)) (IZR v)).
  { intros p v Hp Hv. pose proof (ddiv_R _ _ _ _ Hp HW ltac:(lra)) as K.
    replace (IZR v / 1)%R with (IZR v) in K by field. rewrite rd_IZR in K by lia. apply K.
    apply (abs_big _ 4294967296); [rewrite <- abs_IZR; apply IZR_le; lia|lia]. }
  assert (N : forall p q r, Z.abs p <= 256 -> Z.abs q <= 256 -> Z.abs r <= 1073741824 -> Z.abs (p * x + q * y + r) <= 2000000000).
  { intros p q r Hp Hq Hr.
    assert (Z.abs (p * x) <= 256 * 32768) by (rewrite Z.abs_mul; apply Z.mul_le_mono_nonneg; lia).
    assert (Z.abs (q * y) <= 256 * 32768) by (rewrite Z.abs_mul; apply Z.mul_le_mono_nonneg; lia). lia. }
  assert (HX : isd (sx m x y) (IZR (a * x + b * y + c))).
  { apply D; [apply row_int; try apply I; auto; lia|]. pose proof (N a b c B0 B1 B2). lia. }
  assert (HY : isd (sy m x y) (IZR (d * x + e * y + f))).
  { apply D; [apply row_int; try apply I; auto; lia|]. pose proof (N d e f B3 B4 B5). lia. }
  split; auto. unfold good_px. destruct HX as [F1 V1], HY as [F2 V2]. split.
  - destruct eps_R as (ep & He & Be). rewrite (dlt_R _ _ _ _ (dabs_R _ _ HW) He). apply Rlt_bool_false. rewrite Rabs_R1. lra.
  - split; auto. split; auto. rewrite V1, V2, <- !abs_IZR. split; apply IZR_le; auto.
Qed.

Lemma moves_loop iw ih ow oh b m a1 b1 c1 d1 e1 f1 :
  0 < iw -> 0 < ih -> iw * ih * 4 <= 2147483647 -> 0 < ow <= 32768 -> 0 < oh <= 32768 -> ow * oh * 4 <= 2147483647 ->
  image (iw * ih * 4) b -> moves m a1 b1 c1 d1 e1 f1 -> small6 a1 b1 c1 d1 e1 f1 ->
  exists b', map_loop iw ih ow oh b m (bconst (ow * oh * 4) 0) = Ok b' /\ exact_image (ow * oh * 4) b' /\
    forall x y, 0 <= x < ow -> 0 <= y < oh -> copies b iw ih (a1 * x + b1 * y + c1) (d1 * x + e1 * y + f1) b' ow x y.
Proof.
  intros Hiw Hih HiS How Hoh HoS Hb HM HS.
  assert (G : forall x y, 0 <= x < ow -> 0 <= y < oh -> good_px m x y) by (intros x y Hx Hy; apply (moves_coords m a1 b1 c1 d1 e1 f1); auto; lia).
  destruct (map_loop_ok iw ih ow oh b m) as (b' & E & L & P); auto; try lia.
  exists b'. split; auto. split.
  - apply (pix_image _ _ _ (chan_at b iw ih m)); auto; try lia. intros x y c Hx Hy Hc. split; auto. apply chan_byte; auto.
  - intros x y Hx Hy c Hc. rewrite P by auto. unfold chan_at.
    destruct (moves_coords m a1 b1 c1 d1 e1 f1 x y HM HS ltac:(lia) ltac:(lia)) as (_ & [F1 V1] & [F2 V2]). rewrite V1, V2.
    rewrite chan_exact; auto; try (split; auto).
    destruct (_ && _) eqn:EI; auto. rewrite !andb_true_iff in EI.
    set (i := a1 * x + b1 * y + c1) in *. set (j := d1 * x + e1 * y + f1) in *.
    assert (Hi : 0 <= i < iw) by lia. assert (Hj : 0 <= j < ih) by lia. pose proof (rm_bound iw ih i j Hi Hj).
    destruct Hb as [_ HG]. destruct (HG ((j * iw + i) * 4 + c) ltac:(lia)) as (v & Ev & _). unfold pixv, pix. rewrite Ev. reflexivity.
Qed.

Lemma moves_exact iw ih ow oh s p pm b m a1 b1 c1 d1 e1 f1 :
  0 < iw -> 0 < ih -> iw * ih * 4 <= 2147483647 -> 0 < ow <= 32768 -> 0 < oh <= 32768 -> ow * oh * 4 <= 2147483647 ->
  wf s -> holds s p b -> image (iw * ih * 4) b -> holds_mat s pm m ->
  moves m a1 b1 c1 d1 e1 f1 -> small6 a1 b1 c1 d1 e1 f1 ->
  (a1, c1, e1, f1) <> (-1, 0, -1, 0) ->
  returns_fresh s (apply_matrix_3x3 iw ih p ow oh pm s) (fun b' => exact_image (ow * oh * 4) b' /\
    forall x y, 0 <= x < ow -> 0 <= y < oh -> copies b iw ih (a1 * x + b1 * y + c1) (d1 * x + e1 * y + f1) b' ow x y).
Proof.
  intros Hiw Hih HiS How Hoh HoS Hwf [d [-> Hd]] Hb [t [-> Ht]] HM HS NH.
  destruct (moves_loop iw ih ow oh b m a1 b1 c1 d1 e1 f1) as (b' & E & X & P); auto.
  rewrite guards_ok by lia. erewrite bindM_Ok; [|apply get_mat_ok; exact Ht]. cbv beta.
  pose proof HM as (Hm & M0 & M1 & M2 & M3 & M4 & M5 & _). destruct HS as (B0 & B1 & B2 & B3 & B4 & B5). rewrite no_patch; auto.
  2:{ rewrite M0, <- abs_IZR. apply IZR_le. lia. } 2:{ rewrite M4, <- abs_IZR. apply IZR_le. lia. }
  2:{ intros (H1 & H2 & H3 & H4). apply NH. rewrite M2 in H1. rewrite M5 in H2. rewrite M0 in H3. rewrite M4 in H4.
      apply eq_IZR in H1, H2.
      assert (K : forall v, (Rabs (IZR v + 1) < 1 / 100000000)%R -> v = -1).
      { intros v Hv. rewrite <- plus_IZR, <- abs_IZR in Hv. assert (Z.abs (v + 1) < 1) by (apply lt_IZR; lra). lia. }
      apply K in H3, H4. subst. reflexivity. }
  unfold bindM at 1. unfold ret at 1. cbv iota beta.
  apply (apply_tail iw ih ow oh d t s m b b'); auto.
Qed.

Lemma half_turn_patch iw ih m b1 d1' : moves m (-1) b1 0 d1' (-1) 0 ->
  patch iw ih m = Some [mc m 0; mc m 1; d_of_Z (iw - 1); mc m 3; mc m 4; d_of_Z (ih - 1); mc m 6; mc m 7; mc m 8].
Proof.
  intros (Hm & M0 & M1 & M2 & M3 & M4 & M5 & _). unfold patch.
  assert (K : forall i, (i < 9)%nat -> entry m i = (-1)%R -> dlt (dabs (dadd (mc m i) F.d1)) (lit 1 1000000000) = true).
  { intros i Hi Ei. pose proof (mc_entry m i Hm Hi) as Hmi. rewrite Ei in Hmi. destruct small_R as (ep & He & Be).
    pose proof (dadd_R _ _ _ _ Hmi isd_d1) as D. replace (-1 + 1)%R with 0%R in D by ring. rewrite rd_0 in D.
    rewrite (dlt_R _ _ _ _ (dabs_R _ _ (D ltac:(rewrite Rabs_R0; apply bpow_ge_0))) He). apply Rlt_bool_true. rewrite Rabs_R0. lra. }
  assert (Z : forall i, (i < 9)%nat -> entry m i = 0%R -> deq (mc m i) d0 = true).
  { intros i Hi Ei. rewrite (deq_R _ _ _ _ (mc_entry m i Hm Hi) isd_d0). rewrite Ei. apply Req_bool_true. auto. }
  rewrite !K, !Z; auto; lia.
Qed.

Lemma half_turn_exact iw ih ow oh s p t b m :
  0 < iw -> 0 < ih -> iw * ih * 4 <= 2147483647 -> 0 < ow <= 32768 -> 0 < oh <= 32768 -> ow * oh * 4 <= 2147483647 ->
  wf s -> holds s p b -> image (iw * ih * 4) b -> holds_mat s (Ptr t) m -> moves m (-1) 0 0 0 (-1) 0 ->
  exists m', moves m' (-1) 0 (iw - 1) 0 (-1) (ih - 1) /\
  returns_fresh (with_mat s t m') (apply_matrix_3x3 iw ih p ow oh (Ptr t) s) (fun b' => exact_image (ow * oh * 4) b' /\
    forall x y, 0 <= x < ow -> 0 <= y < oh -> copies b iw ih (iw - 1 - x) (ih - 1 - y) b' ow x y).
Proof.
  intros Hiw Hih HiS How Hoh HoS Hwf [d [-> Hd]] Hb [t' [Et Ht]] HM. injection Et as <-.
  set (m' := [mc m 0; mc m 1; d_of_Z (iw - 1); mc m 3; mc m 4; d_of_Z (ih - 1); mc m 6; mc m 7; mc m 8]).
  assert (Wi : 0 <= iw - 1 < 1000000000) by nia. assert (Hi : 0 <= ih - 1 < 1000000000) by nia.
  assert (HM' : moves m' (-1) 0 (iw - 1) 0 (-1) (ih - 1)).
  { destruct HM as (Hm & M0 & M1 & M2 & M3 & M4 & M5 & M6 & M7 & M8).
    assert (DX : isd (d_of_Z (iw - 1)) (IZR (iw - 1))) by (apply d_of_Z_exact; lia).
    assert (DY : isd (d_of_Z (ih - 1)) (IZR (ih - 1))) by (apply d_of_Z_exact; lia).
    split.
    - split; [reflexivity|]. unfold m'. repeat constructor; try (apply mc_entry; auto; lia); [apply DX|apply DY].
    - unfold m', entry. cbn [nth].
      split; [exact M0|]. split; [exact M1|]. split; [apply DX|]. split; [exact M3|]. split; [exact M4|]. split; [apply DY|].
      split; [exact M6|]. split; [exact M7|exact M8]. }
  exists m'. split; auto.
  destruct (moves_loop iw ih ow oh b m' (-1) 0 (iw - 1) 0 (-1) (ih - 1)) as (b' & E & X & P); auto.
  { unfold small6. lia. }
  rewrite guards_ok by lia. erewrite bindM_Ok; [|apply get_mat_ok; exact Ht]. cbv beta.
  rewrite (half_turn_patch iw ih m 0 0 HM). fold m'.
  erewrite bindM_Ok; [|unfold put_obj; rewrite Ht; reflexivity]. cbv beta. fold (with_mat s t m').
  pose proof (holds_lt s t _ Hwf Ht) as Lt.
  assert (NE : d <> t) by (intros ->; congruence).
  apply (apply_tail iw ih ow oh d t (with_mat s t m') m' b b'); auto.
  - intros i Hi'. unfold with_mat in *. cbn [mem nxt] in *. rewrite upd_other by lia. apply Hwf; auto.
  - unfold with_mat. cbn [mem]. rewrite upd_other by auto. auto.
  - unfold with_mat. cbn [mem]. apply upd_same.
  - split; auto. intros x y Hx Hy. pose proof (P x y Hx Hy) as Q.
    replace (-1 * x + 0 * y + (iw - 1)) with (iw - 1 - x) in Q by ring. replace (0 * x + -1 * y + (ih - 1)) with (ih - 1 - y) in Q by ring. exact Q.
Qed.

Lemma apply_rejects iw ih ow oh s p pm : wf s -> p = Null \/ pm = Null \/ iw <= 0 \/ ih <= 0 \/ ow <= 0 \/ oh <= 0 ->
  returns_null s (apply_matrix_3x3 iw ih p ow oh pm s).
Proof.
  intros Hwf H. assert (E : apply_matrix_3x3 iw ih p ow oh pm s = Ok (Null, s)).
  { unfold apply_matrix_3x3. destruct (is_null p || is_null pm) eqn:E1; auto.
    destruct H as [->|[->|H]]; [discriminate E1|rewrite orb_comm in E1; discriminate E1|].
    replace ((iw <=? 0) || (ih <=? 0) || (ow <=? 0) || (oh <=? 0)) with true by lia. auto. }
  exists s. split; auto. split; [split; auto; split; auto; split; lia|]. intros i; auto.
Qed.

Lemma apply_matrix_range iw ih ow oh s p pm b m :
  0 < iw -> 0 < ih -> iw * ih * 4 <= 2147483647 -> 0 < ow <= 32768 -> 0 < oh <= 32768 -> ow * oh * 4 <= 2147483647 ->
  wf s -> holds s p b -> image (iw * ih * 4) b -> holds_mat s pm m -> tame m ow oh -> ~ half_turn m ->
  returns_fresh s (apply_matrix_3x3 iw ih p ow oh pm s) (fun b' => exact_image (ow * oh * 4) b' /\
    forall x y, 0 <= x < ow -> 0 <= y < oh -> exists X Y,
      (Rabs (X - map_x m x y) <= (1 + Rabs (map_x m x y)) / 10000)%R /\
      (Rabs (Y - map_y m x y) <= (1 + Rabs (map_y m x y)) / 10000)%R /\
      forall c, 0 <= c < 4 -> exists v, pix b' ow 4 x y c = Some v /\
        forall lo hi, within iw ih X Y ->
          (forall i j, (i = Zfloor X \/ i = next iw (Zfloor X)) -> (j = Zfloor Y \/ j = next ih (Zfloor Y)) -> lo <= pixv b iw 4 i j c <= hi) ->
          lo - 1 <= v <= hi).
Proof.
  intros Hiw Hih HiS How Hoh HoS Hwf Hp Hb Hm HT HH.
  pose proof (apply_matrix_ok iw ih ow oh s p pm b m Hiw Hih HiS How Hoh HoS Hwf Hp Hb Hm HT HH) as (q & s' & E & Lt & R).
  exists q, s'. split; auto. split; auto. destruct q; auto. destruct R as (R1 & (b' & R2 & R3 & R4) & R5). split; auto. split; auto.
  exists b'. split; auto. split; auto. intros x y Hx Hy. destruct (R4 x y Hx Hy) as (X & Y & NX & NY & S). exists X, Y. split; auto. split; auto.
  intros c Hc. destruct (S c Hc) as (v & Ev & SW & _). exists v. split; auto. intros lo hi W N. specialize (SW W).
  pose proof (floor_frac X) as FX. pose proof (floor_frac Y) as FY.
  assert (B : (IZR lo <= bilinear b iw ih X Y c <= IZR hi)%R).
  { unfold bilinear. cbv zeta. apply (bil_range _ _ _ _ _ _ (IZR lo) (IZR hi)); try lra;
    (split; apply IZR_le; apply N; auto). }
  assert (IZR (lo - 2) < IZR v)%R by (rewrite minus_IZR; lra). assert (IZR v < IZR (hi + 1))%R by (rewrite plus_IZR; lra).
  apply lt_IZR in H, H0. lia.
Qed.
