(** * P_Foerstner: proofs about fcv_foerstner_corner *)
From Coq Require Import Reals Lra Psatz.
From Flocq Require Import Core.
From Verif Require Import Base BaseLemmas F FLemmas FErr Heap HeapLemmas Spec Spec_Foerstner ExUtil M_Foerstner P_Ext P_FoerstnerR.
Local Open Scope Z_scope.

(** ** Nested loops *)
Lemma for_max {T} lo hi (body : Z -> T -> res T) s : for_ lo hi body s = for_ lo (Z.max lo hi) body s.
Proof. unfold for_. f_equal. lia. Qed.

Lemma for_inv2 {T} (P : Z -> Z -> T -> Prop) ly hy lx hx (body : Z -> Z -> T -> res T) s :
  P ly lx s ->
  (forall y x s, ly <= y < hy -> lx <= x < hx -> P y x s -> exists s', body y x s = Ok s' /\ P y (x + 1) s') ->
  (forall y s, ly <= y < hy -> P y (Z.max lx hx) s -> P (y + 1) lx s) ->
  exists s', for_ ly hy (fun y s => for_ lx hx (body y) s) s = Ok s' /\ P (Z.max ly hy) lx s'.
Proof.
  intros H0 Hb Hr. rewrite for_max. apply (for_inv (fun y s => P y lx s)); auto; [lia|].
  intros y s1 Hy1 H1. rewrite for_max.
  destruct (for_inv (fun x s => P y x s) lx (Z.max lx hx) (body y) s1) as (s2 & E2 & H2); auto; [lia| |].
  - intros x s2 Hx2 H2. apply Hb; auto; lia.
  - exists s2. split; auto. apply Hr; auto; lia.
Qed.

(** The pixel (i, j) comes before (x, y) in the order of the loops. *)
Definition before (x y i j : Z) : bool := (j <? y) || ((j =? y) && (i <? x)).

Lemma before_next x y i j : before (x + 1) y i j = before x y i j || ((j =? y) && (i =? x)).
Proof.
  unfold before. destruct (Z.ltb_spec j y), (Z.eqb_spec j y), (Z.ltb_spec i x), (Z.ltb_spec i (x + 1)), (Z.eqb_spec i x);
    auto; lia.
Qed.
Lemma before_self x y : before x y x y = false.
Proof. unfold before. rewrite Z.ltb_irrefl, Z.eqb_refl, Z.ltb_irrefl. reflexivity. Qed.

(** [b] is a w-by-h array of doubles with the value [f i j] at column i, row j. *)
Definition grid (w h : Z) (b : buf f64) (f : Z -> Z -> f64) : Prop :=
  blen b = w * h /\ forall i j, 0 <= i < w -> 0 <= j < h -> bget b (j * w + i) = Some (f i j).

Lemma grid_load w h b f i j : grid w h b f -> 0 <= i < w -> 0 <= j < h -> load b (j * w + i) = Ok (f i j).
Proof.
  intros [L G] Hi Hj. apply load_ok; auto. rewrite L. apply rm_bound; auto.
Qed.
Lemma grid_ext w h b f g : grid w h b f -> (forall i j, 0 <= i < w -> 0 <= j < h -> f i j = g i j) -> grid w h b g.
Proof. intros [L G] E. split; auto. intros i j Hi Hj. rewrite G by auto. now rewrite E. Qed.
Lemma grid_const w h v : 0 <= w -> 0 <= h -> grid w h (bconst (w * h) v) (fun _ _ => v).
Proof. intros. split; reflexivity. Qed.

(** Storing at (x, y) *)
Lemma grid_store w h b x y (P : Z -> Z -> bool) v f u :
  0 < w -> 0 <= x < w -> 0 <= y < h ->
  grid w h b (fun i j => if P i j && before x y i j then f i j else u) -> P x y = true -> v = f x y ->
  store b (y * w + x) v = Ok (bset b (y * w + x) v) /\
  grid w h (bset b (y * w + x) v) (fun i j => if P i j && before (x + 1) y i j then f i j else u).
Proof.
  intros Hw Hx Hy [L G] HP ->. split.
  - apply store_ok. rewrite L. apply rm_bound; auto.
  - split; [rewrite blen_bset; auto|]. intros i j Hi Hj. rewrite bget_bset.
    destruct (Z.eqb_spec (j * w + i) (y * w + x)) as [E|N].
    + apply rm_inj in E; auto. destruct E as [-> ->]. rewrite HP, before_next, !Z.eqb_refl, orb_true_r. reflexivity.
    + rewrite G by auto. rewrite before_next.
      replace ((j =? y) && (i =? x)) with false; [now rewrite orb_false_r|].
      destruct (Z.eqb_spec j y), (Z.eqb_spec i x); subst; auto; lia.
Qed.

(** Ends of rows *)
Lemma grid_row w h b lx hx ly hy y f u m : hx <= m ->
  grid w h b (fun i j => if ((lx <=? i) && (i <? hx) && (ly <=? j) && (j <? hy)) && before m y i j then f i j else u) ->
  grid w h b (fun i j => if ((lx <=? i) && (i <? hx) && (ly <=? j) && (j <? hy)) && before lx (y + 1) i j then f i j else u).
Proof.
  intros Hm G. eapply grid_ext; [exact G|]. intros i j _ _. cbv beta.
  destruct (Z.leb_spec lx i), (Z.ltb_spec i hx), (Z.leb_spec ly j), (Z.ltb_spec j hy); cbn [andb]; auto.
  replace (before lx (y + 1) i j) with (before m y i j); auto. unfold before.
  destruct (Z.ltb_spec j y), (Z.ltb_spec j (y + 1)), (Z.eqb_spec j y), (Z.eqb_spec j (y + 1)), (Z.ltb_spec i m), (Z.ltb_spec i lx); auto; lia.
Qed.
Lemma grid_start w h b lx hx ly hy (f : Z -> Z -> f64) u : 
  grid w h b (fun _ _ => u) ->
  grid w h b (fun i j => if ((lx <=? i) && (i <? hx) && (ly <=? j) && (j <? hy)) && before lx ly i j then f i j else u).
Proof.
  intros G. eapply grid_ext; [exact G|]. intros i j _ _. cbv beta.
  destruct (Z.leb_spec lx i), (Z.ltb_spec i hx), (Z.leb_spec ly j), (Z.ltb_spec j hy); cbn [andb]; auto.
  unfold before. destruct (Z.ltb_spec j ly), (Z.eqb_spec j ly), (Z.ltb_spec i lx); auto; lia.
Qed.
Lemma grid_end w h b lx hx ly hy f u m : hy <= m ->
  grid w h b (fun i j => if ((lx <=? i) && (i <? hx) && (ly <=? j) && (j <? hy)) && before lx m i j then f i j else u) ->
  grid w h b (fun i j => if ((lx <=? i) && (i <? hx) && (ly <=? j) && (j <? hy)) then f i j else u).
Proof.
  intros Hm G. eapply grid_ext; [exact G|]. intros i j _ _. cbv beta.
  destruct (Z.leb_spec lx i), (Z.ltb_spec i hx), (Z.leb_spec ly j), (Z.ltb_spec j hy); cbn [andb]; auto.
  unfold before. destruct (Z.ltb_spec j m); auto; lia.
Qed.

(** ** Gradients *)
Definition acc6 (k1 k2 k3 k4 k5 k6 : f64) (a b c d e f : Z) : f64 :=
  acc_px (acc_px (acc_px (acc_px (acc_px (acc_px d0 k1 a) k2 b) k3 c) k4 d) k5 e) k6 f.

Lemma acc_px_R acc k z v n : isd acc (IZR n) -> isd k (IZR z) -> Z.abs n <= 100000 -> Z.abs z <= 2 -> 0 <= v <= 255 ->
  isd (acc_px acc k v) (IZR (n + z * v)).
Proof.
  intros A K Hn Hz Hv. unfold acc_px.
  assert (V : isd (d_of_Z v) (IZR v)) by (apply d_of_Z_exact; lia).
  assert (Hp : Z.abs (z * v) <= 510) by nia.
  pose proof (dmul_R _ _ _ _ K V) as Pm. rewrite <- mult_IZR in Pm.
  specialize (Pm ltac:(apply bpow_big; lia)). rewrite rd_IZR in Pm by lia.
  pose proof (dadd_R _ _ _ _ A Pm) as Pa. rewrite <- plus_IZR in Pa.
  specialize (Pa ltac:(apply bpow_big; lia)). rewrite rd_IZR in Pa by lia. exact Pa.
Qed.

Lemma acc6_R z1 z2 z3 z4 z5 z6 k1 k2 k3 k4 k5 k6 a b c d e f :
  isd k1 (IZR z1) -> isd k2 (IZR z2) -> isd k3 (IZR z3) -> isd k4 (IZR z4) -> isd k5 (IZR z5) -> isd k6 (IZR z6) ->
  Z.abs z1 <= 2 -> Z.abs z2 <= 2 -> Z.abs z3 <= 2 -> Z.abs z4 <= 2 -> Z.abs z5 <= 2 -> Z.abs z6 <= 2 ->
  0 <= a <= 255 -> 0 <= b <= 255 -> 0 <= c <= 255 -> 0 <= d <= 255 -> 0 <= e <= 255 -> 0 <= f <= 255 ->
  isd (acc6 k1 k2 k3 k4 k5 k6 a b c d e f) (IZR (z1 * a + z2 * b + z3 * c + z4 * d + z5 * e + z6 * f)).
Proof.
  intros. assert (Z.abs (z1 * a) <= 510) by nia. assert (Z.abs (z2 * b) <= 510) by nia.
  assert (Z.abs (z3 * c) <= 510) by nia. assert (Z.abs (z4 * d) <= 510) by nia. assert (Z.abs (z5 * e) <= 510) by nia.
  replace (z1 * a + z2 * b + z3 * c + z4 * d + z5 * e + z6 * f)
    with (0 + z1 * a + z2 * b + z3 * c + z4 * d + z5 * e + z6 * f) by ring.
  unfold acc6. generalize isd_d0. generalize d0. clear - H H0 H1 H2 H3 H4 H5 H6 H7 H8 H9 H10 H11 H12 H13 H14 H15 H16 H17 H18 H19 H20 H21. intros z Iz.
  do 6 (apply acc_px_R; [|assumption|lia|assumption|assumption]). exact Iz.
Qed.

Lemma d1_R : isd F.d1 (IZR 1). Proof. exact isd_d1. Qed.

(** The two gradients of a pixel, as computed *)
Definition fgx (b : buf Z) (w x y : Z) : f64 :=
  ddiv (acc6 (d_of_Z (-1)) F.d1 (d_of_Z (-2)) (d_of_Z 2) (d_of_Z (-1)) F.d1
    (gray1 b w (x - 1) (y - 1)) (gray1 b w (x + 1) (y - 1)) (gray1 b w (x - 1) y) (gray1 b w (x + 1) y)
    (gray1 b w (x - 1) (y + 1)) (gray1 b w (x + 1) (y + 1))) (d_of_Z 8).
Definition fgy (b : buf Z) (w x y : Z) : f64 :=
  ddiv (acc6 (d_of_Z (-1)) (d_of_Z (-2)) (d_of_Z (-1)) F.d1 (d_of_Z 2) F.d1
    (gray1 b w (x - 1) (y - 1)) (gray1 b w x (y - 1)) (gray1 b w (x + 1) (y - 1)) (gray1 b w (x - 1) (y + 1))
    (gray1 b w x (y + 1)) (gray1 b w (x + 1) (y + 1))) (d_of_Z 8).

Section Picture.
Context (w h : Z) (b : buf Z).
Hypothesis (Hw : 0 < w) (Hh : 0 < h) (Hn : w * h <= INT_MAX) (Hb : image (w * h) b).

Lemma wh32 : w <= INT_MAX /\ h <= INT_MAX. Proof. split; nia. Qed.

Lemma gray1_ok x y : 0 <= x < w -> 0 <= y < h ->
  load b (y * w + x) = Ok (gray1 b w x y) /\ 0 <= gray1 b w x y <= 255.
Proof.
  intros Hx Hy. destruct Hb as [L G]. pose proof (rm_bound w h x y Hx Hy) as B.
  destruct (G (y * w + x) B) as (v & E & R).
  assert (gray1 b w x y = v).
  { unfold gray1, pixv, pix. replace ((y * w + x) * 1 + 0) with (y * w + x) by ring. now rewrite E. }
  rewrite H. split; [apply load_ok; auto; lia|]. unfold byte in *. lia.
Qed.

Definition inner (i j : Z) : bool := (1 <=? i) && (i <? w - 1) && (1 <=? j) && (j <? h - 1).

Lemma grads_at x y : 1 <= x < w - 1 -> 1 <= y < h - 1 ->
  exists gx gy, grad_x_at b w x y = Ok gx /\ grad_y_at b w x y = Ok gy /\
    ddiv gx (d_of_Z 8) = fgx b w x y /\ ddiv gy (d_of_Z 8) = fgy b w x y.
Proof.
  intros Hx Hy. pose proof wh32 as [W1 W2]. unfold INT_MAX in *.
  assert (Idx : forall i j, 0 <= i < w -> 0 <= j < h -> u32 (u32 (j * w) + i) = j * w + i).
  { intros i j Hi Hj. pose proof (rm_bound w h i j Hi Hj). rewrite (u32_small (j * w)) by nia. apply u32_small. lia. }
  unfold grad_x_at, grad_y_at, gray_px.
  rewrite !(u32_small (y - 1)), !(u32_small (x - 1)), !(u32_small (y + 1)), !(u32_small (x + 1)) by lia.
  rewrite !Idx by lia.
  rewrite !(fun i j Hi Hj => proj1 (gray1_ok i j Hi Hj)) by lia. cbn [bind].
  eexists _, _. split; [reflexivity|]. split; [reflexivity|]. unfold fgx, fgy, acc6. split; reflexivity.
Qed.

Lemma gradients_ok gx0 gy0 :
  grid w h gx0 (fun _ _ => d0) -> grid w h gy0 (fun _ _ => d0) ->
  exists g, gradients b w h (gx0, gy0) = Ok g /\
    grid w h (fst g) (fun i j => if inner i j then fgx b w i j else d0) /\
    grid w h (snd g) (fun i j => if inner i j then fgy b w i j else d0).
Proof.
  intros G1 G2. pose proof wh32 as [W1 W2]. unfold gradients. unfold INT_MAX in *.
  rewrite !(u32_small (h - 1)), !(u32_small (w - 1)) by lia. rewrite for_u32_small by lia.
  set (P := fun y x (g : buf f64 * buf f64) =>
    grid w h (fst g) (fun i j => if inner i j && before x y i j then fgx b w i j else d0) /\
    grid w h (snd g) (fun i j => if inner i j && before x y i j then fgy b w i j else d0)).
  destruct (for_inv2 P 1 (h - 1) 1 (w - 1) (fun y x g =>
    let idx := u32 (u32 (y * w) + x) in
    gx <- grad_x_at b w x y ;;
    gy <- grad_y_at b w x y ;;
    bx <- store (fst g) idx (ddiv gx (d_of_Z 8)) ;;
    by_ <- store (snd g) idx (ddiv gy (d_of_Z 8)) ;;
    Ok (bx, by_)) (gx0, gy0)) as (g & E & Q1 & Q2).
  - split; apply grid_start; auto.
  - intros y x [bx by_] Hy Hx [Q1 Q2]. cbn [fst snd] in *.
    destruct (grads_at x y ltac:(lia) ltac:(lia)) as (gx & gy & Ex & Ey & Dx & Dy).
    rewrite Ex, Ey. cbn [bind]. rewrite Dx, Dy.
    pose proof (rm_bound w h x y ltac:(lia) ltac:(lia)).
    replace (u32 (u32 (y * w) + x)) with (y * w + x)
      by (rewrite (u32_small (y * w)) by nia; rewrite u32_small; lia).
    assert (I : inner x y = true) by (unfold inner; lia).
    destruct (grid_store w h bx x y inner (fgx b w x y) (fgx b w) d0 ltac:(lia) ltac:(lia) ltac:(lia) Q1 I eq_refl) as [S1 R1].
    destruct (grid_store w h by_ x y inner (fgy b w x y) (fgy b w) d0 ltac:(lia) ltac:(lia) ltac:(lia) Q2 I eq_refl) as [S2 R2].
    rewrite S1. cbn [bind]. rewrite S2. cbn [bind]. eexists. split; [reflexivity|]. split; auto.
  - intros y [bx by_] Hy [Q1 Q2]. split; eapply grid_row; eauto; lia.
  - exists g. split.
    + rewrite <- E. apply for_ext. intros y g1 Hy. now rewrite for_u32_small by lia.
    + split; eapply grid_end; eauto; lia.
Qed.

(** Filling an array in the order of its indices *)
Definition fill (k : Z) (a : buf f64) (f : Z -> Z -> f64) : Prop :=
  blen a = w * h /\ forall i j, 0 <= i < w -> 0 <= j < h -> j * w + i < k -> bget a (j * w + i) = Some (f i j).
Lemma fill_start a f : blen a = w * h -> fill 0 a f.
Proof. intros L. split; auto. intros i j Hi Hj H. pose proof (rm_bound w h i j Hi Hj). lia. Qed.
Lemma fill_store a f x y v : 0 <= x < w -> 0 <= y < h -> fill (y * w + x) a f -> v = f x y ->
  store a (y * w + x) v = Ok (bset a (y * w + x) v) /\ fill (y * w + x + 1) (bset a (y * w + x) v) f.
Proof.
  intros Hx Hy [L G] ->. split; [apply store_ok; rewrite L; apply rm_bound; auto|].
  split; [now rewrite blen_bset|]. intros i j Hi Hj H. rewrite bget_bset.
  destruct (Z.eqb_spec (j * w + i) (y * w + x)) as [E|N].
  - apply rm_inj in E; auto. destruct E as [-> ->]. reflexivity.
  - apply G; auto. lia.
Qed.
Lemma fill_end a f : fill (w * h) a f -> grid w h a f.
Proof. intros [L G]. split; auto. intros i j Hi Hj. apply G; auto. pose proof (rm_bound w h i j Hi Hj). lia. Qed.

Lemma products_ok gx gy xx xy yy f g :
  grid w h gx f -> grid w h gy g -> blen xx = w * h -> blen xy = w * h -> blen yy = w * h ->
  exists a, products (w * h) gx gy (xx, xy, yy) = Ok a /\
    grid w h (fst (fst a)) (fun i j => dmul (f i j) (f i j)) /\
    grid w h (snd (fst a)) (fun i j => dmul (f i j) (g i j)) /\
    grid w h (snd a) (fun i j => dmul (g i j) (g i j)).
Proof.
  intros F G Lxx Lxy Lyy. unfold INT_MAX in *. unfold products. rewrite for_u32_small by lia.
  set (P := fun k (a : buf3) =>
    fill k (fst (fst a)) (fun i j => dmul (f i j) (f i j)) /\
    fill k (snd (fst a)) (fun i j => dmul (f i j) (g i j)) /\
    fill k (snd a) (fun i j => dmul (g i j) (g i j))).
  match goal with |- context [for_ 0 (w * h) ?bd ?s0] => destruct (for_inv P 0 (w * h) bd s0) as (a & E & Q1 & Q2 & Q3) end.
  - nia.
  - repeat split; try apply fill_start; auto;
    intros i j Hi Hj H; pose proof (rm_bound w h i j Hi Hj); lia.
  - intros k [[a1 a2] a3] Hk (Q1 & Q2 & Q3). cbn [fst snd] in *.
    destruct (rm_decomp w h k Hw Hk) as (Hx & Hy & Ek).
    set (x := k mod w) in *; set (y := k / w) in *; clearbody x y; subst k.
    rewrite (grid_load w h gx f x y F Hx Hy), (grid_load w h gy g x y G Hx Hy). cbn [bind].
    destruct (fill_store a1 _ x y _ Hx Hy Q1 eq_refl) as [S1 R1]. rewrite S1. cbn [bind].
    destruct (fill_store a2 _ x y _ Hx Hy Q2 eq_refl) as [S2 R2]. rewrite S2. cbn [bind].
    destruct (fill_store a3 _ x y _ Hx Hy Q3 eq_refl) as [S3 R3]. rewrite S3. cbn [bind].
    eexists. split; [reflexivity|]. repeat split; cbn [fst snd]; [apply R1|apply R1|apply R2|apply R2|apply R3|apply R3].
  - exists a. split; auto. split; [|split]; apply fill_end; auto.
Qed.

(** ** Sums over windows *)
Lemma zsum_snoc n : forall lo f, zsum (S n) lo f = zsum n lo f + f (lo + Z.of_nat n).
Proof.
  induction n as [|n IH]; intros lo f; [cbn [zsum]; replace (lo + Z.of_nat 0) with lo by lia; lia|].
  change (zsum (S (S n)) lo f) with (f lo + zsum (S n) (lo + 1) f). rewrite IH.
  change (zsum (S n) lo f) with (f lo + zsum n (lo + 1) f).
  replace (lo + 1 + Z.of_nat n) with (lo + Z.of_nat (S n)) by lia. ring.
Qed.
Lemma zsum_bound n B : forall lo f, (forall i, Z.abs (f i) <= B) -> Z.abs (zsum n lo f) <= Z.of_nat n * B.
Proof.
  induction n as [|n IH]; intros lo f H; [cbn; lia|].
  change (zsum (S n) lo f) with (f lo + zsum n (lo + 1) f). pose proof (H lo). pose proof (IH (lo + 1) f H). nia.
Qed.
Lemma zsum_next lo k f : lo <= k -> zsum (Z.to_nat (k + 1 - lo)) lo f = zsum (Z.to_nat (k - lo)) lo f + f k.
Proof.
  intros H. replace (Z.to_nat (k + 1 - lo)) with (S (Z.to_nat (k - lo))) by lia. rewrite zsum_snoc. do 2 f_equal. lia.
Qed.

Definition b6 : R := bpow radix2 (-6).
Lemma sum_step s z v c : isd s (IZR z * b6) -> isd v (IZR c * b6) -> Z.abs (z + c) <= 9007199254740992 ->
  isd (dadd s v) (IZR (z + c) * b6).
Proof.
  intros S V H. unfold b6 in *. pose proof (dadd_R _ _ _ _ S V) as A. rewrite <- Rmult_plus_distr_r, <- plus_IZR in A.
  rewrite rd_dyadic in A by lia. apply A.
  rewrite Rabs_mult. apply Rle_trans with (Rabs (IZR (z + c)) * 1)%R.
  - apply Rmult_le_compat_l; [apply Rabs_pos|]. unfold b6. rewrite Rabs_pos_eq by apply bpow_ge_0. cbn. lra.
  - rewrite Rmult_1_r. apply bpow_big. lia.
Qed.

Definition exact6 (f : Z -> Z -> f64) (z : Z -> Z -> Z) : Prop :=
  forall i j, isd (f i j) (IZR (z i j) * b6) /\ Z.abs (z i j) <= 1100000.

Definition part (k x y ky : Z) (z : Z -> Z -> Z) : Z :=
  zsum (Z.to_nat (ky - - k)) (- k) (fun dy => zsum (Z.to_nat (2 * k + 1)) (- k) (fun dx => z (x + dx) (y + dy))).
Definition prow (k x y ky kx : Z) (z : Z -> Z -> Z) : Z :=
  zsum (Z.to_nat (kx - - k)) (- k) (fun dx => z (x + dx) (y + ky)).

Lemma part_next k x y ky z : 0 <= k -> - k <= ky -> part k x y (ky + 1) z = part k x y ky z + prow k x y ky (k + 1) z.
Proof. intros H H'. unfold part, prow. rewrite zsum_next by lia. do 2 f_equal. lia. Qed.
Lemma prow_next k x y ky kx z : - k <= kx -> prow k x y ky (kx + 1) z = prow k x y ky kx z + z (x + kx) (y + ky).
Proof. intros H. unfold prow. rewrite zsum_next by lia. reflexivity. Qed.
Lemma part_bound f k x y ky z : exact6 f z -> 0 <= k -> - k <= ky <= k + 1 ->
  Z.abs (part k x y ky z) <= (ky + k) * ((2 * k + 1) * 1100000).
Proof.
  intros E Hk H. unfold part. eapply Z.le_trans; [apply zsum_bound|].
  - intros dy. apply zsum_bound. intros dx. apply E.
  - rewrite !Z2Nat.id by lia. lia.
Qed.
Lemma prow_bound f k x y ky kx z : exact6 f z -> 0 <= k -> - k <= kx <= k + 1 ->
  Z.abs (prow k x y ky kx z) <= (kx + k) * 1100000.
Proof.
  intros E Hk H. unfold prow. eapply Z.le_trans; [apply zsum_bound; intros dx; apply E|].
  rewrite !Z2Nat.id by lia. lia.
Qed.

Lemma step6 f k x y ky kx z s v : exact6 f z -> 0 <= k -> (2 * k + 1) * (2 * k + 1) <= INT_MAX ->
  - k <= ky <= k -> - k <= kx <= k ->
  isd s (IZR (part k x y ky z + prow k x y ky kx z) * b6) -> v = f (x + kx) (y + ky) ->
  isd (dadd s v) (IZR (part k x y ky z + prow k x y ky (kx + 1) z) * b6).
Proof.
  intros E Hk Hc Hy Hx S ->. rewrite prow_next by lia. rewrite Z.add_assoc. apply sum_step; auto; [apply E|].
  pose proof (part_bound f k x y ky z E Hk ltac:(lia)). pose proof (prow_bound f k x y ky kx z E Hk ltac:(lia)).
  pose proof (proj2 (E (x + kx) (y + ky))). unfold INT_MAX in *.
  assert ((ky + k) * ((2 * k + 1) * 1100000) <= (2 * k) * ((2 * k + 1) * 1100000)) by nia.
  assert (2 * k + 1 <= 46341) by nia. nia.
Qed.

Lemma box_sum_ok k x y a1 a2 a3 f1 f2 f3 z1 z2 z3 :
  0 <= k -> k <= x < w - k -> k <= y < h - k ->
  grid w h a1 f1 -> grid w h a2 f2 -> grid w h a3 f3 -> exact6 f1 z1 -> exact6 f2 z2 -> exact6 f3 z3 ->
  exists s1 s2 s3, box_sum w k x y (a1, a2, a3) = Ok (s1, s2, s3, (2 * k + 1) * (2 * k + 1)) /\
    isd s1 (IZR (window k x y z1) * b6) /\ isd s2 (IZR (window k x y z2) * b6) /\ isd s3 (IZR (window k x y z3) * b6).
Proof.
  intros Hk Hx Hy G1 G2 G3 E1 E2 E3. unfold box_sum. pose proof wh32 as [W1 W2].
  assert (Hc : (2 * k + 1) * (2 * k + 1) <= INT_MAX) by nia.
  set (P := fun ky kx (t : f64 * f64 * f64 * Z) => let '(s1, s2, s3, c) := t in
    isd s1 (IZR (part k x y ky z1 + prow k x y ky kx z1) * b6) /\
    isd s2 (IZR (part k x y ky z2 + prow k x y ky kx z2) * b6) /\
    isd s3 (IZR (part k x y ky z3 + prow k x y ky kx z3) * b6) /\
    c = (ky + k) * (2 * k + 1) + (kx + k)).
  assert (Z0 : forall ky z, prow k x y ky (- k) z = 0).
  { intros ky z. unfold prow. now rewrite Z.sub_diag. }
  assert (Z1 : forall z, part k x y (- k) z = 0).
  { intros z. unfold part. now rewrite Z.sub_diag. }
  match goal with |- context [for_ (- k) (k + 1) (fun ky acc => for_ (- k) (k + 1) (@?bd ky) acc) ?s0] =>
    destruct (for_inv2 P (- k) (k + 1) (- k) (k + 1) bd s0) as ([[[s1 s2] s3] c] & E & Q1 & Q2 & Q3 & Q4) end.
  - unfold P. rewrite !Z0, !Z1. change (IZR (0 + 0)) with 0%R. rewrite Rmult_0_l. repeat split; try lia.
  - intros ky kx [[[s1 s2] s3] c] Hky Hkx (Q1 & Q2 & Q3 & Q4). unfold INT_MAX in *.
    pose proof (rm_bound w h (x + kx) (y + ky) ltac:(lia) ltac:(lia)).
    replace (s32 _) with ((y + ky) * w + (x + kx)).
    2: { rewrite (u32_small (y + ky)) by lia. rewrite (u32_small (x + kx)) by lia.
         rewrite (u32_small ((y + ky) * w)) by nia. rewrite u32_small by lia. rewrite s32_small; auto. unfold INT_MIN, INT_MAX. lia. }
    rewrite (grid_load w h a1 f1 _ _ G1), (grid_load w h a2 f2 _ _ G2), (grid_load w h a3 f3 _ _ G3) by lia. cbn [bind].
    rewrite ck32_ok by (unfold INT_MIN, INT_MAX; nia). cbn [bind]. eexists. split; [reflexivity|].
    unfold P. split; [|split; [|split]]; [eapply step6; eauto; unfold INT_MAX; lia .. | lia].
  - intros ky [[[s1 s2] s3] c] Hky. unfold P. rewrite Z.max_r by lia. intros (Q1 & Q2 & Q3 & Q4).
    rewrite !part_next by lia. rewrite !Z0, !Z.add_0_r. split; [|split; [|split]]; auto. lia.
  - exists s1, s2, s3. rewrite E. rewrite Z.max_r in * by lia.
    assert (Wn : forall z, part k x y (k + 1) z + prow k x y (k + 1) (- k) z = window k x y z).
    { intros z. rewrite Z0, Z.add_0_r. unfold part, window. do 2 f_equal. lia. }
    rewrite !Wn in *. split; [do 2 f_equal; lia|]. auto.
Qed.

(** ** Smoothing *)
Definition cnt (k : Z) : Z := (2 * k + 1) * (2 * k + 1).
Definition avg (k x y : Z) (z : Z -> Z -> Z) : R := rd (IZR (window k x y z) * b6 / IZR (cnt k)).

Lemma window_bound f k x y z : exact6 f z -> 0 <= k -> Z.abs (window k x y z) <= cnt k * 1100000.
Proof.
  intros E Hk. unfold window, cnt. eapply Z.le_trans; [apply zsum_bound|].
  - intros dy. apply zsum_bound. intros dx. apply E.
  - rewrite !Z2Nat.id by lia. lia.
Qed.
Lemma cnt_pos k : 0 <= k -> 1 <= cnt k. Proof. unfold cnt; nia. Qed.

Lemma avg_arg f k x y z : exact6 f z -> 0 <= k -> (Rabs (IZR (window k x y z) * b6 / IZR (cnt k)) <= 17188)%R.
Proof.
  intros E Hk. pose proof (window_bound f k x y z E Hk) as B. pose proof (cnt_pos k Hk) as C.
  apply IZR_le in C. apply IZR_le in B. rewrite abs_IZR, mult_IZR in B.
  unfold Rdiv. rewrite !Rabs_mult. rewrite (Rabs_pos_eq b6) by apply bpow_ge_0.
  rewrite (Rabs_pos_eq (/ _)) by (apply Rlt_le, Rinv_0_lt_compat; lra).
  apply Rmult_le_reg_r with (IZR (cnt k)); [lra|]. rewrite Rmult_assoc, Rinv_l, Rmult_1_r by lra.
  unfold b6. change (bpow radix2 (-6)) with (/ 64)%R. lra.
Qed.

Lemma avg_R f k x y z s : exact6 f z -> 0 <= k -> cnt k <= INT_MAX -> isd s (IZR (window k x y z) * b6) ->
  isd (ddiv s (d_of_Z (cnt k))) (avg k x y z).
Proof.
  intros E Hk Hc S. pose proof (cnt_pos k Hk) as C. unfold INT_MAX in *. unfold avg. apply ddiv_R; auto.
  - apply d_of_Z_exact. lia.
  - apply IZR_le in C. lra.
  - apply abs_big with 17188; [eapply avg_arg; eauto|lia].
Qed.

Definition bsum (k x y : Z) (a : buf3) : f64 * f64 * f64 :=
  match box_sum w k x y a with Ok (s1, s2, s3, _) => (s1, s2, s3) | _ => (d0, d0, d0) end.

Lemma smooth_ok k a1 a2 a3 f1 f2 f3 z1 z2 z3 o1 o2 o3 :
  0 <= k -> k <= w -> k <= h ->
  grid w h a1 f1 -> grid w h a2 f2 -> grid w h a3 f3 -> exact6 f1 z1 -> exact6 f2 z2 -> exact6 f3 z3 ->
  grid w h o1 (fun _ _ => d0) -> grid w h o2 (fun _ _ => d0) -> grid w h o3 (fun _ _ => d0) ->
  exists s g1 g2 g3, smooth w h k (a1, a2, a3) (o1, o2, o3) = Ok s /\
    grid w h (fst (fst s)) g1 /\ grid w h (snd (fst s)) g2 /\ grid w h (snd s) g3 /\
    forall x y, 0 <= x < w -> 0 <= y < h ->
      if fits w h k x y then isd (g1 x y) (avg k x y z1) /\ isd (g2 x y) (avg k x y z2) /\ isd (g3 x y) (avg k x y z3)
      else g1 x y = d0 /\ g2 x y = d0 /\ g3 x y = d0.
Proof.
  intros Hk Hkw Hkh G1 G2 G3 E1 E2 E3 O1 O2 O3. pose proof wh32 as [W1 W2].
  set (A := (a1, a2, a3)).
  set (F1 := fun x y => ddiv (fst (fst (bsum k x y A))) (d_of_Z (cnt k))).
  set (F2 := fun x y => ddiv (snd (fst (bsum k x y A))) (d_of_Z (cnt k))).
  set (F3 := fun x y => ddiv (snd (bsum k x y A)) (d_of_Z (cnt k))).
  unfold smooth. unfold INT_MAX in W1, W2.
  rewrite !(u32_small k), !(u32_small (h - k)), !(u32_small (w - k)) by lia. rewrite for_u32_small by lia.
  set (P := fun y x (s : buf3) =>
    grid w h (fst (fst s)) (fun i j => if fits w h k i j && before x y i j then F1 i j else d0) /\
    grid w h (snd (fst s)) (fun i j => if fits w h k i j && before x y i j then F2 i j else d0) /\
    grid w h (snd s) (fun i j => if fits w h k i j && before x y i j then F3 i j else d0)).
  destruct (for_inv2 P k (h - k) k (w - k) (fun y x s =>
    let '(xx, xy, yy) := s in
    let idx := u32 (u32 (y * w) + x) in
    acc <- box_sum w k x y A ;;
    let '(sxx, sxy, syy, count) := acc in
    xx <- store xx idx (ddiv sxx (d_of_Z count)) ;;
    xy <- store xy idx (ddiv sxy (d_of_Z count)) ;;
    yy <- store yy idx (ddiv syy (d_of_Z count)) ;;
    Ok (xx, xy, yy)) (o1, o2, o3)) as (s & E & Q1 & Q2 & Q3).
  - split; [|split]; apply grid_start; auto.
  - intros y x [[xx xy] yy] Hy Hx (Q1 & Q2 & Q3). cbn [fst snd] in *.
    destruct (box_sum_ok k x y a1 a2 a3 f1 f2 f3 z1 z2 z3) as (s1 & s2 & s3 & Eb & _); auto; try lia.
    fold A in Eb. rewrite Eb. cbn [bind].
    pose proof (rm_bound w h x y ltac:(lia) ltac:(lia)). unfold INT_MAX in Hn.
    replace (u32 (u32 (y * w) + x)) with (y * w + x)
      by (rewrite (u32_small (y * w)) by nia; rewrite u32_small; lia).
    assert (I : fits w h k x y = true) by (unfold fits; lia).
    assert (V1 : ddiv s1 (d_of_Z ((2 * k + 1) * (2 * k + 1))) = F1 x y) by (unfold F1, bsum; rewrite Eb; reflexivity).
    assert (V2 : ddiv s2 (d_of_Z ((2 * k + 1) * (2 * k + 1))) = F2 x y) by (unfold F2, bsum; rewrite Eb; reflexivity).
    assert (V3 : ddiv s3 (d_of_Z ((2 * k + 1) * (2 * k + 1))) = F3 x y) by (unfold F3, bsum; rewrite Eb; reflexivity).
    destruct (grid_store w h xx x y _ _ F1 d0 ltac:(lia) ltac:(lia) ltac:(lia) Q1 I V1) as [S1 R1].
    destruct (grid_store w h xy x y _ _ F2 d0 ltac:(lia) ltac:(lia) ltac:(lia) Q2 I V2) as [S2 R2].
    destruct (grid_store w h yy x y _ _ F3 d0 ltac:(lia) ltac:(lia) ltac:(lia) Q3 I V3) as [S3 R3].
    rewrite S1. cbn [bind]. rewrite S2. cbn [bind]. rewrite S3. cbn [bind]. eexists. split; [reflexivity|]. split; [|split]; auto.
  - intros y [[xx xy] yy] Hy (Q1 & Q2 & Q3). split; [|split]; eapply grid_row; eauto; lia.
  - exists s, (fun i j => if fits w h k i j then F1 i j else d0), (fun i j => if fits w h k i j then F2 i j else d0),
      (fun i j => if fits w h k i j then F3 i j else d0).
    split; [|split; [|split; [|split]]]; try (eapply grid_end; [|eassumption]; lia).
    + rewrite <- E. apply for_ext. intros y g1 Hy. now rewrite for_u32_small by lia.
    + intros x y Hx Hy. destruct (fits w h k x y) eqn:I; auto. unfold fits in I.
      destruct (box_sum_ok k x y a1 a2 a3 f1 f2 f3 z1 z2 z3) as (s1 & s2 & s3 & Eb & B1 & B2 & B3); auto; try lia.
      fold A in Eb. unfold F1, F2, F3, bsum. rewrite Eb. cbn [fst snd].
      assert (cnt k <= INT_MAX) by (unfold cnt, INT_MAX in *; nia).
      split; [|split]; eapply avg_R; eauto.
Qed.

(** ** The gradients are exact *)
Definition fx (i j : Z) : f64 := if inner i j then fgx b w i j else d0.
Definition fy (i j : Z) : f64 := if inner i j then fgy b w i j else d0.

Lemma div8 s z : isd s (IZR z) -> Z.abs z <= 1100000 -> isd (ddiv s (d_of_Z 8)) (IZR z * bpow radix2 (-3)).
Proof.
  intros S Hz. assert (I8 : isd (d_of_Z 8) 8) by (apply (d_of_Z_exact 8); lia).
  assert (Bz : (Rabs (IZR z) <= 1100000)%R) by (rewrite <- abs_IZR; apply (IZR_le _ 1100000); lia).
  pose proof (ddiv_R _ _ _ _ S I8 ltac:(lra)) as D.
  replace (IZR z / 8)%R with (IZR z * bpow radix2 (-3))%R in D by (cbn; lra).
  rewrite rd_dyadic in D by lia. apply D. apply abs_big with 1100000; [|lia].
  rewrite Rabs_mult. rewrite (Rabs_pos_eq (bpow _ _)) by apply bpow_ge_0. change (bpow radix2 (-3)) with (/ 8)%R. lra.
Qed.

Lemma slopes_R i j :
  isd (fx i j) (IZR (slope_x b w h i j) * bpow radix2 (-3)) /\ Z.abs (slope_x b w h i j) <= 1020 /\
  isd (fy i j) (IZR (slope_y b w h i j) * bpow radix2 (-3)) /\ Z.abs (slope_y b w h i j) <= 1020.
Proof.
  unfold fx, fy, slope_x, slope_y. change (off_border w h i j) with (inner i j).
  destruct (inner i j) eqn:I.
  2: { rewrite Rmult_0_l. repeat split; lia. }
  unfold inner in I.
  assert (G : forall x y, 0 <= x < w -> 0 <= y < h -> 0 <= gray1 b w x y <= 255) by (intros; now apply gray1_ok).
  pose proof (G (i - 1) (j - 1) ltac:(lia) ltac:(lia)). pose proof (G i (j - 1) ltac:(lia) ltac:(lia)).
  pose proof (G (i + 1) (j - 1) ltac:(lia) ltac:(lia)). pose proof (G (i - 1) j ltac:(lia) ltac:(lia)).
  pose proof (G (i + 1) j ltac:(lia) ltac:(lia)). pose proof (G (i - 1) (j + 1) ltac:(lia) ltac:(lia)).
  pose proof (G i (j + 1) ltac:(lia) ltac:(lia)). pose proof (G (i + 1) (j + 1) ltac:(lia) ltac:(lia)).
  assert (K : forall z, Z.abs z <= 2 -> isd (d_of_Z z) (IZR z)) by (intros; apply d_of_Z_exact; lia).
  pose proof d1_R as K1.
  split; [|split; [lia|split; [|lia]]].
  - unfold fgx. apply div8; [|lia].
    match goal with |- isd _ (IZR ?e) => replace e with
      (-1 * gray1 b w (i - 1) (j - 1) + 1 * gray1 b w (i + 1) (j - 1) + -2 * gray1 b w (i - 1) j + 2 * gray1 b w (i + 1) j
       + -1 * gray1 b w (i - 1) (j + 1) + 1 * gray1 b w (i + 1) (j + 1)) by ring end.
    apply acc6_R; auto; try (apply K; lia); lia.
  - unfold fgy. apply div8; [|lia].
    match goal with |- isd _ (IZR ?e) => replace e with
      (-1 * gray1 b w (i - 1) (j - 1) + -2 * gray1 b w i (j - 1) + -1 * gray1 b w (i + 1) (j - 1) + 1 * gray1 b w (i - 1) (j + 1)
       + 2 * gray1 b w i (j + 1) + 1 * gray1 b w (i + 1) (j + 1)) by ring end.
    apply acc6_R; auto; try (apply K; lia); lia.
Qed.

Lemma mul6 f g p q : isd f (IZR p * bpow radix2 (-3)) -> isd g (IZR q * bpow radix2 (-3)) ->
  Z.abs p <= 1020 -> Z.abs q <= 1020 -> isd (dmul f g) (IZR (p * q) * b6) /\ Z.abs (p * q) <= 1100000.
Proof.
  intros F G Hp Hq. assert (Z.abs (p * q) <= 1100000) by nia. split; auto.
  pose proof (dmul_R _ _ _ _ F G) as M.
  replace (IZR p * bpow radix2 (-3) * (IZR q * bpow radix2 (-3)))%R with (IZR (p * q) * bpow radix2 (-6))%R in M.
  2: { rewrite mult_IZR. change (-6)%Z with (-3 + -3)%Z. rewrite bpow_plus. ring. }
  rewrite rd_dyadic in M by lia. apply M. apply abs_big with 1100000; [|lia].
  rewrite Rabs_mult. rewrite (Rabs_pos_eq (bpow _ _)) by apply bpow_ge_0. change (bpow radix2 (-6)) with (/ 64)%R.
  rewrite <- abs_IZR. assert (IZR (Z.abs (p * q)) <= 1100000)%R by (apply (IZR_le _ 1100000); lia).
  assert (0 <= IZR (Z.abs (p * q)))%R by (apply (IZR_le 0); lia). lra.
Qed.

Definition zxx i j := slope_x b w h i j * slope_x b w h i j.
Definition zxy i j := slope_x b w h i j * slope_y b w h i j.
Definition zyy i j := slope_y b w h i j * slope_y b w h i j.
Lemma exact_xx : exact6 (fun i j => dmul (fx i j) (fx i j)) zxx.
Proof. intros i j. destruct (slopes_R i j) as (X & BX & Y & BY). now apply mul6. Qed.
Lemma exact_xy : exact6 (fun i j => dmul (fx i j) (fy i j)) zxy.
Proof. intros i j. destruct (slopes_R i j) as (X & BX & Y & BY). now apply mul6. Qed.
Lemma exact_yy : exact6 (fun i j => dmul (fy i j) (fy i j)) zyy.
Proof. intros i j. destruct (slopes_R i j) as (X & BX & Y & BY). now apply mul6. Qed.

(** ** Cauchy and Schwarz *)
Lemma zsum_ext n : forall lo f g, (forall i, f i = g i) -> zsum n lo f = zsum n lo g.
Proof. induction n; intros lo f g H; cbn [zsum]; auto. rewrite H, (IHn _ f g); auto. Qed.
Lemma zsum_lin n : forall lo f g e p q r,
  zsum n lo (fun i => p * f i + q * g i + r * e i) = p * zsum n lo f + q * zsum n lo g + r * zsum n lo e.
Proof. induction n as [|n IH]; intros; cbn [zsum]; [ring|]. rewrite IH. ring. Qed.
Lemma zsum_nonneg n : forall lo f, (forall i, 0 <= f i) -> 0 <= zsum n lo f.
Proof. induction n as [|n IH]; intros lo f H; cbn [zsum]; [lia|]. pose proof (H lo). pose proof (IH (lo + 1) f H). lia. Qed.
Lemma window_lin k x y f g e p q r :
  window k x y (fun i j => p * f i j + q * g i j + r * e i j) = p * window k x y f + q * window k x y g + r * window k x y e.
Proof.
  unfold window. rewrite <- zsum_lin. apply zsum_ext. intros dy. now rewrite zsum_lin.
Qed.
Lemma window_nonneg k x y f : (forall i j, 0 <= f i j) -> 0 <= window k x y f.
Proof. intros H. unfold window. apply zsum_nonneg. intros dy. apply zsum_nonneg. intros dx. apply H. Qed.
Lemma window_ext k x y f g : (forall i j, f i j = g i j) -> window k x y f = window k x y g.
Proof. intros H. unfold window. apply zsum_ext. intros dy. apply zsum_ext. intros dx. apply H. Qed.

Lemma cauchy k x y (f g : Z -> Z -> Z) :
  let P := window k x y (fun i j => f i j * f i j) in
  let Q := window k x y (fun i j => f i j * g i j) in
  let R := window k x y (fun i j => g i j * g i j) in
  0 <= P /\ 0 <= R /\ Q * Q <= P * R.
Proof.
  intros P Q R. assert (HP : 0 <= P) by (apply window_nonneg; intros; nia).
  assert (HR : 0 <= R) by (apply window_nonneg; intros; nia). split; auto. split; auto.
  assert (H : forall a c, 0 <= a * a * P + 2 * a * c * Q + c * c * R).
  { intros a c. unfold P, Q, R. rewrite <- (window_lin k x y _ _ _ (a * a) (2 * a * c) (c * c)).
    apply window_nonneg. intros i j.
    replace (a * a * (f i j * f i j) + 2 * a * c * (f i j * g i j) + c * c * (g i j * g i j))
      with ((a * f i j + c * g i j) * (a * f i j + c * g i j)) by ring. apply Z.square_nonneg. }
  destruct (Z.eq_dec R 0) as [E|E].
  - rewrite E, Z.mul_0_r. pose proof (H 1 (- Q * (P + 1))) as H1. rewrite E in H1.
    destruct (Z.eq_dec Q 0) as [->|NQ]; [lia|]. assert (Hq : 1 <= Q * Q) by nia.
    replace (1 * 1 * P + 2 * 1 * (- Q * (P + 1)) * Q + - Q * (P + 1) * (- Q * (P + 1)) * 0) with (P - 2 * ((P + 1) * (Q * Q))) in H1 by ring.
    set (q := Q * Q) in *. clearbody q. nia.
  - pose proof (H R (- Q)) as H1. replace (R * R * P + 2 * R * - Q * Q + - Q * - Q * R) with (R * (P * R - Q * Q)) in H1 by ring. set (v := P * R - Q * Q) in *.
    assert (0 <= v) by (clearbody v; nia). lia.
Qed.

(** ** The measures of one pixel *)
Definition pixel_ok (k : Z) (wv qv : f64) (x y : Z) : Prop :=
  isd wv (B2R wv) /\ isd qv (B2R qv) /\
  (0 <= B2R wv <= bpow radix2 120)%R /\ (0 <= B2R qv <= bpow radix2 120)%R /\
  (fits w h k x y = false \/ one_way b w h k x y -> B2R wv = 0%R /\ B2R qv = 0%R) /\
  (k <= 5000 -> within (1 / 1000000000) (B2R wv) (strength b w h k x y) /\
                within (1 / 1000000000) (B2R qv) (roundness b w h k x y)).

Lemma within_0 e : (0 <= e)%R -> within e 0 0.
Proof. intros. unfold within. rewrite Rminus_0_r, Rabs_R0. auto. Qed.

Lemma pixel_measures k x y g1 g2 g3 : 1 <= k ->
  (if fits w h k x y then isd g1 (avg k x y zxx) /\ isd g2 (avg k x y zxy) /\ isd g3 (avg k x y zyy)
   else g1 = d0 /\ g2 = d0 /\ g3 = d0) ->
  pixel_ok k (fst (measures g1 g2 g3)) (snd (measures g1 g2 g3)) x y.
Proof.
  intros Hk. unfold pixel_ok, strength, roundness. destruct (fits w h k x y) eqn:Fi.
  2: { intros (-> & -> & ->).
       replace (measures d0 d0 d0) with (d0, d0) by (symmetry; apply injective_projections; apply B2SF_inj; vm_compute; reflexivity).
       cbn [fst snd andb]. change (B2R d0) with 0%R. pose proof (bpow_ge_0 radix2 120).
       split; [exact isd_d0|]. split; [exact isd_d0|]. split; [lra|]. split; [lra|]. split; auto.
       intros _. split; apply within_0; lra. }
  intros (I1 & I2 & I3). unfold avg in *.
  assert (Hk0 : 0 <= k) by lia.
  destruct (cauchy k x y (slope_x b w h) (slope_y b w h)) as (P1 & P3 & CS).
  change (window k x y (fun i j => slope_x b w h i j * slope_x b w h i j)) with (tens_xx b w h k x y) in *.
  change (window k x y (fun i j => slope_x b w h i j * slope_y b w h i j)) with (tens_xy b w h k x y) in *.
  change (window k x y (fun i j => slope_y b w h i j * slope_y b w h i j)) with (tens_yy b w h k x y) in *.
  pose proof (avg_arg _ k x y _ exact_xx Hk0) as B1. pose proof (avg_arg _ k x y _ exact_xy Hk0) as B2.
  pose proof (avg_arg _ k x y _ exact_yy Hk0) as B3.
  change (window k x y zxx) with (tens_xx b w h k x y) in *.
  change (window k x y zxy) with (tens_xy b w h k x y) in *.
  change (window k x y zyy) with (tens_yy b w h k x y) in *.
  unfold one_way, tens_det, tens_tr in *.
  set (X := tens_xx b w h k x y) in *. set (V := tens_xy b w h k x y) in *. set (Y := tens_yy b w h k x y) in *.
  clearbody X V Y.
  assert (Cp : (1 <= IZR (cnt k))%R) by (apply (IZR_le 1); apply cnt_pos; auto).
  change ((2 * k + 1) * (2 * k + 1)) with (cnt k).
  unfold b6 in *. change (bpow radix2 (-6)) with (/ 64)%R in *.
  set (c := IZR (cnt k)) in *.
  assert (P1' : (0 <= IZR X)%R) by (apply (IZR_le 0); auto). assert (P3' : (0 <= IZR Y)%R) by (apply (IZR_le 0); auto).
  assert (CS' : (IZR V * IZR V <= IZR X * IZR Y)%R) by (rewrite <- !mult_IZR; apply IZR_le; auto).
  assert (Ic : (0 < / c)%R) by (apply Rinv_0_lt_compat; lra).
  set (A := (IZR X * / 64 / c)%R) in *. set (B := (IZR V * / 64 / c)%R) in *. set (C := (IZR Y * / 64 / c)%R) in *.
  assert (EA : A = (IZR X * (/ 64 * / c))%R) by (unfold A, Rdiv; ring).
  assert (EB : B = (IZR V * (/ 64 * / c))%R) by (unfold B, Rdiv; ring).
  assert (EC : C = (IZR Y * (/ 64 * / c))%R) by (unfold C, Rdiv; ring).
  assert (PA : (0 <= A)%R) by (rewrite EA; apply Rmult_le_pos; lra).
  assert (PC : (0 <= C)%R) by (rewrite EC; apply Rmult_le_pos; lra).
  assert (HB : (B * B <= A * C)%R).
  { rewrite EA, EB, EC. set (q := (/ 64 * / c)%R). assert (0 <= q)%R by (unfold q; lra).
    replace (IZR V * q * (IZR V * q))%R with (IZR V * IZR V * (q * q))%R by ring.
    replace (IZR X * q * (IZR Y * q))%R with (IZR X * IZR Y * (q * q))%R by ring.
    apply Rmult_le_compat_r; nra. }
  assert (ES : (A + C = IZR (X + Y) * (/ 64 * / c))%R) by (rewrite EA, EC, plus_IZR; ring).
  assert (Fin : exists W Q, isd (fst (measures g1 g2 g3)) W /\ isd (snd (measures g1 g2 g3)) Q /\
      (0 <= W <= bpow radix2 120)%R /\ (0 <= Q <= bpow radix2 120)%R /\
      ((A + C)%R = 0%R -> W = 0%R /\ Q = 0%R) /\
      (k <= 5000 -> (0 < A + C)%R -> within (1 / 1000000000) W ((A * C - B * B) / (A + C)) /\
                  within (1 / 1000000000) Q (4 * (A * C - B * B) / ((A + C) * (A + C))))).
  { assert (B1' : (Rabs A <= 20000)%R) by lra. assert (B2' : (Rabs B <= 20000)%R) by lra. assert (B3' : (Rabs C <= 20000)%R) by lra.
    destruct (Z.le_gt_cases k 5000) as [L|G].
    - destruct (measures_near g1 g2 g3 A B C I1 I2 I3 PA PC HB) as (W & Q & IW & IQ & RW & RQ & R0 & R1); auto.
      + destruct (Z.eq_dec (X + Y) 0) as [E|E].
        * left. rewrite ES, E. lra.
        * right. rewrite Rabs_pos_eq in B1, B3 by auto. split; [|lra].
          assert (H1 : (1 <= IZR (X + Y))%R) by (apply (IZR_le 1); lia).
          assert (Hc : (c <= 100020001)%R) by (apply (IZR_le _ 100020001); unfold cnt; nia).
          assert (Hic : (/ 100020001 <= / c)%R) by (apply Rinv_le; lra).
          rewrite ES. apply Rle_trans with (1 * (/ 64 * / 100020001))%R; [lra|].
          apply Rmult_le_compat; lra.
      + exists W, Q. auto 10.
    - destruct (measures_R g1 g2 g3 (rd A) (rd B) (rd C)) as (W & Q & IW & IQ & RW & RQ & R0 & R1); auto;
        try (change 20000%R with (IZR 20000); apply rd_abs; auto; lia).
      exists W, Q. do 4 (split; [assumption|]). split; [|lia].
      intros E. assert (A = 0%R) by lra. assert (C = 0%R) by lra. apply R0. rewrite H, H0.
      rewrite rd_0, Rplus_0_l, rd_0, Rabs_R0. pose proof thr_lo. pose proof (bpow_gt_0 radix2 (-34)). lra. }
  assert (Fin2 : (B * B = 0 /\ (A = 0 \/ C = 0) \/ (A = Rabs B /\ C = Rabs B))%R ->
      B2R (fst (measures g1 g2 g3)) = 0%R /\ B2R (snd (measures g1 g2 g3)) = 0%R).
  { assert (B1' : (Rabs A <= 20000)%R) by lra. assert (B2' : (Rabs B <= 20000)%R) by lra. assert (B3' : (Rabs C <= 20000)%R) by lra.
    destruct (measures_R g1 g2 g3 (rd A) (rd B) (rd C)) as (W & Q & [_ IW] & [_ IQ] & _ & _ & R0 & R1); auto;
        try (change 20000%R with (IZR 20000); apply rd_abs; auto; lia).
    intros Z. rewrite IW, IQ.
    assert (D0 : rd (rd (rd A * rd C) - rd (rd B * rd B)) = 0%R).
    { replace (rd A * rd C)%R with (rd B * rd B)%R; [replace (_ - _)%R with 0%R by lra; apply rd_0|].
      destruct Z as [[Z1 Z2]|[Z1 Z2]].
      - assert (ZB : B = 0%R) by (destruct (Rmult_integral _ _ Z1); auto). rewrite ZB, rd_0.
        destruct Z2 as [-> | ->]; rewrite rd_0; lra.
      - rewrite Z1, Z2. unfold Rabs. destruct (Rcase_abs B); auto. unfold rd. rewrite round_NE_opp. lra. }
    rewrite D0 in *. destruct (Rle_lt_dec (Rabs (rd (rd A + rd C))) thr) as [L|L]; [auto|].
    destruct (R1 L) as [-> ->]. unfold Rdiv. rewrite Rmult_0_r, rd_0, !Rmult_0_l, !rd_0. rewrite Rmax_left by lra. auto. }
  destruct Fin as (W & Q & [FW IW] & [FQ IQ] & RW & RQ & R0 & R1). rewrite IW, IQ in *.
  split; [split; auto|]. split; [split; auto|]. split; auto. split; auto. split.
  - intros [H|H]; [discriminate|]. apply Fin2. destruct H as [H|[H|[H1 H2]]].
    + left. assert (A = 0%R) by (rewrite EA, H; lra). rewrite H0 in HB. split; [|auto]. nra.
    + left. assert (C = 0%R) by (rewrite EC, H; lra). rewrite H0 in HB. split; [|auto]. nra.
    + right. rewrite EA, EB, EC, H1, H2. rewrite Rabs_mult, abs_IZR, (Rabs_pos_eq (/ 64 * / c)) by lra. auto.
  - intros L. destruct (Z.eqb_spec (X + Y) 0) as [E|E]; cbn [negb andb].
    + destruct R0 as [-> ->]; [rewrite ES, E; lra|]. split; apply within_0; lra.
    + assert (PT : (0 < IZR (X + Y))%R) by (apply (IZR_lt 0); lia).
      destruct (R1 L) as [N1 N2]; [rewrite ES; apply Rmult_lt_0_compat; lra|].
      assert (E1 : ((A * C - B * B) / (A + C) = IZR (X * Y - V * V) / (IZR (64 * cnt k) * IZR (X + Y)))%R).
      { rewrite ES, EA, EB, EC, minus_IZR, !mult_IZR. fold c. field. split; lra. }
      assert (E2 : (4 * (A * C - B * B) / ((A + C) * (A + C)) = 4 * IZR (X * Y - V * V) / (IZR (X + Y) * IZR (X + Y)))%R).
      { rewrite ES, EA, EB, EC, minus_IZR, !mult_IZR. field. split; lra. }
      rewrite <- E1, <- E2. auto.
Qed.

(** ** First pass *)
(** [m] is the largest of the values of [f] at the first [n] pixels, and 0. *)
Definition max_upto (n : Z) (f : Z -> Z -> f64) (m : f64) : Prop :=
  isd m (B2R m) /\ (0 <= B2R m <= bpow radix2 120)%R /\
  (forall i j, 0 <= i < w -> 0 <= j < h -> j * w + i < n -> (B2R (f i j) <= B2R m)%R) /\
  (B2R m = 0%R \/ exists i j, 0 <= i < w /\ 0 <= j < h /\ B2R (f i j) = B2R m).

Lemma max_upto_next x y f m : 0 <= x < w -> 0 <= y < h -> max_upto (y * w + x) f m ->
  isd (f x y) (B2R (f x y)) -> (0 <= B2R (f x y) <= bpow radix2 120)%R ->
  max_upto (y * w + x + 1) f (if dlt m (f x y) then f x y else m).
Proof.
  intros Hx Hy (I & R & L & E) If Rf. rewrite (dlt_R _ _ _ _ I If).
  assert (Sp : forall i j, 0 <= i < w -> 0 <= j < h -> j * w + i < y * w + x + 1 -> (i = x /\ j = y) \/ j * w + i < y * w + x).
  { intros i j Hi Hj Hl. destruct (Z.eq_dec (j * w + i) (y * w + x)) as [E'|N]; [left; now apply (rm_inj w)|right; lia]. }
  destruct (Rlt_bool_spec (B2R m) (B2R (f x y))) as [Lt|Ge].
  - split; auto. split; auto. split.
    + intros i j Hi Hj Hl. destruct (Sp i j Hi Hj Hl) as [[-> ->]|H]; [lra|]. pose proof (L i j Hi Hj H). lra.
    + right. exists x, y. auto.
  - split; auto. split; auto. split; auto.
    intros i j Hi Hj Hl. destruct (Sp i j Hi Hj Hl) as [[-> ->]|H]; auto.
Qed.

Lemma measure_all_ok k a1 a2 a3 g1 g2 g3 wv0 qv0 : 
  grid w h a1 g1 -> grid w h a2 g2 -> grid w h a3 g3 -> blen wv0 = w * h -> blen qv0 = w * h ->
  (forall x y, 0 <= x < w -> 0 <= y < h ->
     pixel_ok k (fst (measures (g1 x y) (g2 x y) (g3 x y))) (snd (measures (g1 x y) (g2 x y) (g3 x y))) x y) ->
  let fw := fun x y => fst (measures (g1 x y) (g2 x y) (g3 x y)) in
  let fq := fun x y => snd (measures (g1 x y) (g2 x y) (g3 x y)) in
  exists wv qv mw mq, measure_all (w * h) (a1, a2, a3) (wv0, qv0, d0, d0) = Ok (wv, qv, mw, mq) /\
    grid w h wv fw /\ grid w h qv fq /\ max_upto (w * h) fw mw /\ max_upto (w * h) fq mq.
Proof.
  intros G1 G2 G3 L1 L2 Hp fw fq. unfold measure_all. unfold INT_MAX in *. rewrite for_u32_small by lia.
  set (P := fun n (t : buf f64 * buf f64 * f64 * f64) => let '(wv, qv, mw, mq) := t in
    fill n wv fw /\ fill n qv fq /\ max_upto n fw mw /\ max_upto n fq mq).
  match goal with |- context [for_ 0 (w * h) ?bd ?s0] =>
    destruct (for_inv P 0 (w * h) bd s0) as ([[[wv qv] mw] mq] & E & Q1 & Q2 & Q3 & Q4) end.
  - nia.
  - assert (M0 : forall f, max_upto 0 f d0).
    { intros f. split; [exact isd_d0|]. change (B2R d0) with 0%R. pose proof (bpow_ge_0 radix2 120).
      split; [lra|]. split; auto. intros i j Hi Hj H'. pose proof (rm_bound w h i j Hi Hj). lia. }
    split; [|split; [|split]]; auto; apply fill_start; auto.
  - intros n [[[wv qv] mw] mq] Hk (Q1 & Q2 & Q3 & Q4).
    destruct (rm_decomp w h n Hw Hk) as (Hx & Hy & Ek).
    set (x := n mod w) in *; set (y := n / w) in *; clearbody x y; subst n.
    rewrite (grid_load w h a1 g1 x y G1 Hx Hy), (grid_load w h a2 g2 x y G2 Hx Hy), (grid_load w h a3 g3 x y G3 Hx Hy). cbn [bind].
    assert (Em : measures (g1 x y) (g2 x y) (g3 x y) = (fw x y, fq x y)) by (unfold fw, fq; apply surjective_pairing).
    rewrite Em. destruct (Hp x y Hx Hy) as (I1 & I2 & R1 & R2 & _). fold (fw x y) in I1, R1. fold (fq x y) in I2, R2.
    destruct (fill_store wv fw x y _ Hx Hy Q1 eq_refl) as [S1 T1]. rewrite S1. cbn [bind].
    destruct (fill_store qv fq x y _ Hx Hy Q2 eq_refl) as [S2 T2]. rewrite S2. cbn [bind].
    eexists. split; [reflexivity|]. split; [|split; [|split]]; auto; now apply max_upto_next.
  - exists wv, qv, mw, mq. split; auto. split; [now apply fill_end|]. split; [now apply fill_end|]. auto.
Qed.

(** ** Second pass *)
(** What the byte [v] says about a value, the largest one being [m] *)
Definition byte_ok (a m : R) (v : Z) : Prop :=
  0 <= v <= 255 /\ (a = 0%R -> v = 0) /\
  ((0 < m)%R -> (255 * a / m - 1 - 1 / 1000000000 <= IZR v <= 255 * a / m + 1 / 1000000000)%R).

Lemma write_bytes_ok wv qv fw fq mw mq out :
  grid w h wv fw -> grid w h qv fq -> max_upto (w * h) fw mw -> max_upto (w * h) fq mq ->
  (forall x y, 0 <= x < w -> 0 <= y < h -> isd (fw x y) (B2R (fw x y)) /\ isd (fq x y) (B2R (fq x y)) /\
     (0 <= B2R (fw x y))%R /\ (0 <= B2R (fq x y))%R) ->
  blen out = w * h * 2 ->
  exists out', write_bytes (w * h) wv qv mw mq out = Ok out' /\ blen out' = w * h * 2 /\
    forall x y, 0 <= x < w -> 0 <= y < h ->
      (exists v, pix out' w 2 x y 0 = Some v /\ byte_ok (B2R (fw x y)) (B2R mw) v) /\
      (exists v, pix out' w 2 x y 1 = Some v /\ byte_ok (B2R (fq x y)) (B2R mq) v).
Proof.
  intros G1 G2 (Im & Rm & Lm & _) (Iq & Rq & Lq & _) Hf L. unfold write_bytes. unfold INT_MAX in *. rewrite for_u32_small by lia.
  set (P := fun n (o : buf Z) => blen o = w * h * 2 /\ forall x y, 0 <= x < w -> 0 <= y < h -> y * w + x < n ->
      (exists v, pix o w 2 x y 0 = Some v /\ byte_ok (B2R (fw x y)) (B2R mw) v) /\
      (exists v, pix o w 2 x y 1 = Some v /\ byte_ok (B2R (fq x y)) (B2R mq) v)).
  match goal with |- context [for_ 0 (w * h) ?bd ?s0] =>
    destruct (for_inv P 0 (w * h) bd s0) as (o & E & Q1 & Q2) end.
  - nia.
  - split; auto. intros x y Hx Hy H'. pose proof (rm_bound w h x y Hx Hy). lia.
  - intros n o Hk (Q1 & Q2).
    destruct (rm_decomp w h n Hw Hk) as (Hx & Hy & Ek).
    set (x := n mod w) in *; set (y := n / w) in *; clearbody x y; subst n.
    rewrite (grid_load w h wv fw x y G1 Hx Hy), (grid_load w h qv fq x y G2 Hx Hy). cbn [bind].
    destruct (Hf x y Hx Hy) as (I1 & I2 & P1 & P2).
    destruct (norm_byte_R _ _ _ _ I1 Im (conj P1 (Lm x y Hx Hy ltac:(lia))) (proj2 Rm)) as (v1 & E1 & V1).
    destruct (norm_byte_R _ _ _ _ I2 Iq (conj P2 (Lq x y Hx Hy ltac:(lia))) (proj2 Rq)) as (v2 & E2 & V2).
    rewrite E1, E2. cbn [bind].
    assert (U1 : u32 ((y * w + x) * 2) = (y * w + x) * 2) by (apply u32_small; lia).
    assert (U2 : u32 (u32 ((y * w + x) * 2) + 1) = (y * w + x) * 2 + 1) by (rewrite U1; apply u32_small; lia).
    rewrite U2, U1. rewrite store_ok by lia. cbn [bind]. rewrite store_ok by (rewrite blen_bset; lia).
    eexists. split; [reflexivity|]. split; [now rewrite !blen_bset|].
    intros i j Hi Hj Hl. unfold pix. rewrite !bget_bset.
    destruct (Z.eq_dec (j * w + i) (y * w + x)) as [E'|N].
    + apply rm_inj in E'; auto. destruct E' as [-> ->].
      destruct (Z.eqb_spec ((y * w + x) * 2 + 0) ((y * w + x) * 2 + 1)); [lia|].
      destruct (Z.eqb_spec ((y * w + x) * 2 + 0) ((y * w + x) * 2)); [|lia].
      rewrite Z.eqb_refl. split; [exists v1|exists v2]; split; auto.
    + destruct (Z.eqb_spec ((j * w + i) * 2 + 0) ((y * w + x) * 2 + 1)); [lia|].
      destruct (Z.eqb_spec ((j * w + i) * 2 + 0) ((y * w + x) * 2)); [lia|].
      destruct (Z.eqb_spec ((j * w + i) * 2 + 1) ((y * w + x) * 2 + 1)); [lia|].
      destruct (Z.eqb_spec ((j * w + i) * 2 + 1) ((y * w + x) * 2)); [lia|].
      apply Q2; auto. lia.
  - exists o. split; auto. split; auto. intros x y Hx Hy. apply Q2; auto. apply rm_bound; auto.
Qed.

(** ** From the values computed to the exact ones *)
Lemma quot_near e S s m M : (0 <= e)%R -> (e <= 1 / 1000000000)%R -> (1 / 1000 <= m)%R ->
  (0 <= S <= m)%R -> (Rabs (s - S) <= e)%R -> (Rabs (M - m) <= e)%R ->
  (0 < M)%R /\ (255 * S / m - 1 / 1000 <= 255 * s / M <= 255 * S / m + 1 / 1000)%R.
Proof.
  intros He1 He2 Hm HS Hs HM. apply Rabs_le_inv in Hs. apply Rabs_le_inv in HM.
  assert (PM : (0 < M)%R) by lra. split; auto.
  assert (Im : (0 < / m)%R) by (apply Rinv_0_lt_compat; lra). assert (IM : (0 < / M)%R) by (apply Rinv_0_lt_compat; lra).
  set (q := (S / m)%R). assert (Hq : (0 <= q <= 1)%R).
  { unfold q, Rdiv. split; [apply Rmult_le_pos; lra|]. apply Rmult_le_reg_r with m; [lra|]. rewrite Rmult_assoc, Rinv_l; lra. }
  assert (ES : S = (q * m)%R) by (unfold q; field; lra).
  replace (255 * S / m)%R with (255 * q)%R by (unfold q, Rdiv; ring).
  assert (QM : (q * m - q * e <= q * M <= q * m + q * e)%R) by (split; nra).
  assert (QE : (q * e <= e)%R) by nra.
  split.
  - apply Rmult_le_reg_r with M; auto. replace (255 * s / M * M)%R with (255 * s)%R by (field; lra). nra.
  - apply Rmult_le_reg_r with M; auto. replace (255 * s / M * M)%R with (255 * s)%R by (field; lra). nra.
Qed.

Lemma shows_ok b' c (f : Z -> Z -> f64) (S : Z -> Z -> R) mf :
  max_upto (w * h) f mf ->
  (forall x y, 0 <= x < w -> 0 <= y < h -> (0 <= B2R (f x y))%R /\ within (1 / 1000000000) (B2R (f x y)) (S x y)) ->
  (forall x y, 0 <= x < w -> 0 <= y < h -> (0 <= S x y)%R) ->
  (forall x y, 0 <= x < w -> 0 <= y < h -> exists v, pix b' w 2 x y c = Some v /\ byte_ok (B2R (f x y)) (B2R mf) v) ->
  shows w h b' c S.
Proof.
  intros (_ & R & L & E) Hf HS Hb' m [M1 (xm & ym & Hxm & Hym & M2)] Hm x y Hx Hy.
  assert (ML : forall i j, 0 <= i < w -> 0 <= j < h -> (B2R (f i j) <= B2R mf)%R).
  { intros i j Hi Hj. apply L; auto. apply rm_bound; auto. }
  assert (NM : (Rabs (B2R mf - m) <= 1 / 1000000000)%R).
  { apply Rabs_le. split.
    - pose proof (ML xm ym Hxm Hym). destruct (Hf xm ym Hxm Hym) as [_ W]. unfold within in W. apply Rabs_le_inv in W. lra.
    - destruct E as [E|(i & j & Hi & Hj & E)]; [rewrite E; lra|].
      destruct (Hf i j Hi Hj) as [_ W]. unfold within in W. apply Rabs_le_inv in W. pose proof (M1 i j Hi Hj). lra. }
  destruct (Hf x y Hx Hy) as [P W]. unfold within in W.
  destruct (quot_near (1 / 1000000000) (S x y) (B2R (f x y)) m (B2R mf)) as [PM Q]; auto; try lra.
  destruct (Hb' x y Hx Hy) as (v & Ev & (_ & _ & Bv)). exists v. split; auto. specialize (Bv PM). lra.
Qed.

Lemma strength_nonneg k x y : (0 <= strength b w h k x y)%R /\ (0 <= roundness b w h k x y)%R.
Proof.
  unfold strength, roundness. destruct (fits w h k x y); cbn [andb]; [|split; lra].
  destruct (cauchy k x y (slope_x b w h) (slope_y b w h)) as (P1 & P3 & CS).
  fold (tens_xx b w h k x y) in *. fold (tens_xy b w h k x y) in *. fold (tens_yy b w h k x y) in *.
  destruct (Z.eqb_spec (tens_tr b w h k x y) 0) as [E|E]; cbn [negb]; [split; lra|].
  assert (PT : (0 < IZR (tens_tr b w h k x y))%R) by (apply (IZR_lt 0); unfold tens_tr in *; lia).
  assert (PD : (0 <= IZR (tens_det b w h k x y))%R) by (apply (IZR_le 0); unfold tens_det; lia).
  assert (PC : (0 < IZR (64 * ((2 * k + 1) * (2 * k + 1))))%R) by (apply (IZR_lt 0); nia).
  split; unfold Rdiv; (apply Rmult_le_pos; [lra|]); apply Rlt_le, Rinv_0_lt_compat; nra.
Qed.

Lemma picture_ok k fw fq mw mq b' :
  (forall x y, 0 <= x < w -> 0 <= y < h -> pixel_ok k (fw x y) (fq x y) x y) ->
  max_upto (w * h) fw mw -> max_upto (w * h) fq mq -> blen b' = w * h * 2 ->
  (forall x y, 0 <= x < w -> 0 <= y < h ->
      (exists v, pix b' w 2 x y 0 = Some v /\ byte_ok (B2R (fw x y)) (B2R mw) v) /\
      (exists v, pix b' w 2 x y 1 = Some v /\ byte_ok (B2R (fq x y)) (B2R mq) v)) ->
  corner_picture w h k b b'.
Proof.
  intros Hp Mw Mq L Hb'. split; [|split].
  - split; auto. split; [lia|]. intros i Hi.
    destruct (px_decomp w h 2 i) as (x & y & c & Hx & Hy & Hc & ->); auto; try lia.
    destruct (Hb' x y Hx Hy) as [(v1 & E1 & B1 & _) (v2 & E2 & B2 & _)]. unfold pix in *.
    assert (c = 0 \/ c = 1) as [-> | ->] by lia; [exists v1|exists v2]; split; auto; unfold byte; lia.
  - intros x y Hx Hy H. destruct (Hp x y Hx Hy) as (_ & _ & _ & _ & Z & _). destruct (Z H) as [Z1 Z2].
    destruct (Hb' x y Hx Hy) as [(v1 & E1 & _ & B1 & _) (v2 & E2 & _ & B2 & _)].
    rewrite E1, E2, B1, B2; auto.
  - intros Hk. split.
    + eapply shows_ok; [exact Mw| | |].
      * intros x y Hx Hy. destruct (Hp x y Hx Hy) as (_ & _ & R & _ & _ & N). destruct (N Hk). split; auto. lra.
      * intros. apply strength_nonneg.
      * intros x y Hx Hy. apply (Hb' x y Hx Hy).
    + eapply shows_ok; [exact Mq| | |].
      * intros x y Hx Hy. destruct (Hp x y Hx Hy) as (_ & _ & _ & R & _ & N). destruct (N Hk). split; auto. lra.
      * intros. apply strength_nonneg.
      * intros x y Hx Hy. apply (Hb' x y Hx Hy).
Qed.

(** ** The whole function *)
Lemma kernel_ok sigma : sigma_ok sigma -> exists ks, kernel_size sigma = Ok ks /\ half_of ks = half_window sigma /\ 1 <= half_window sigma.
Proof.
  intros [F R]. unfold kernel_size, half_window.
  assert (I3 : isd (d_of_Z 3) 3) by (apply (d_of_Z_exact 3); lia).
  pose proof (isd_finite _ F) as Is.
  assert (B : (Rabs (3 * B2R sigma) <= IZR 2100000000)%R) by (apply Rabs_le; lra).
  pose proof (dmul_R _ _ _ _ I3 Is ltac:(eapply abs_big; [exact B|lia])) as M.
  pose proof (rd_abs _ _ B ltac:(lia)) as B'. apply Rabs_le_inv in B'.
  destruct (cast_int_R INT_MIN INT_MAX _ _ M) as [E _]; unfold INT_MIN, INT_MAX; try lia; try lra.
  unfold to_i32. rewrite E. cbn [bind]. destruct M as [_ M]. rewrite M.
  set (k := Z.lor _ 1). exists (if k <? 3 then 3 else k). split; auto.
  replace (if k <? 3 then 3 else k) with (Z.max 3 k) by (destruct (Z.ltb_spec k 3); lia).
  unfold half_of. rewrite Z.quot_div_nonneg by lia. split; auto. apply Z.div_le_lower_bound; lia.
Qed.

Lemma free_all_cons {B} p ps (k : unit -> M B) s :
  bindM (free_all (p :: ps)) k s = bindM (free p) (fun _ => bindM (free_all ps) k) s.
Proof. cbn [free_all]. unfold bindM. destruct (free p s) as [[? ?]| | |]; reflexivity. Qed.
Lemma free_all_nil {B} (k : unit -> M B) s : bindM (free_all []) k s = k tt s.
Proof. reflexivity. Qed.
Ltac xfrees :=
  repeat match goal with |- context [bindM (free_all (?p :: ?ps)) ?k ?s] => rewrite (free_all_cons p ps k s); cbv beta; xfree end;
  match goal with |- context [bindM (free_all []) ?k ?s] => rewrite (free_all_nil k s) end; cbv beta.

Lemma foerstner_ok sigma s d : wf s -> mem s d = Some (OBytes b) -> sigma_ok sigma ->
  half_window sigma <= w -> half_window sigma <= h ->
  returns_fresh s (foerstner_corner w h (Ptr d) sigma s) (corner_picture w h (half_window sigma) b).
Proof.
  intros W Hd Hs Hkw Hkh. pose proof wh32 as [W1 W2].
  destruct (kernel_ok sigma Hs) as (ks & Ek & Eh & Hk).
  unfold foerstner_corner. destruct (Z.eqb_spec w 0); [lia|]. destruct (Z.eqb_spec h 0); [lia|]. cbn [is_null orb].
  assert (N32 : u32 (w * h) = w * h) by (apply u32_small; unfold INT_MAX in *; nia).
  assert (N64 : u32 (w * h * 2) = w * h * 2) by (apply u32_small; unfold INT_MAX in *; nia).
  rewrite !N32, N64. rewrite (ext_nil s W) at 2.
  assert (G0 : grid w h (bconst (w * h) d0) (fun _ _ => d0)) by (apply grid_const; lia).
  xalloc ORC1; xalloc ORC2; [|xfrees; xnull ..].
  xold. xgetd. xgetd.
  destruct (gradients_ok _ _ G0 G0) as (g & Eg & Gx & Gy). xlift Eg. unfold put_dbl. xput. xput.
  xalloc ORC3; xalloc ORC4; xalloc ORC5;
    [|xfrees; xnull ..].
  xgetd. xgetd. xgetd. xgetd. xgetd.
  destruct (products_ok (fst g) (snd g) (bnew (w * h)) (bnew (w * h)) (bnew (w * h)) fx fy Gx Gy eq_refl eq_refl eq_refl)
    as (a & Ea & Ax & Axy & Ay). xlift Ea. xput. xput. xput. xlift Ek. rewrite Eh.
  xalloc ORC6; xalloc ORC7; xalloc ORC8;
    [|xfrees;
      xnull ..].
  do 6 xgetd.
  destruct (smooth_ok (half_window sigma) _ _ _ _ _ _ _ _ _ (bconst (w * h) d0) (bconst (w * h) d0) (bconst (w * h) d0)
    ltac:(lia) Hkw Hkh Ax Axy Ay exact_xx exact_xy exact_yy G0 G0 G0) as (sm & g1 & g2 & g3 & Es & S1 & S2 & S3 & Hpix).
  xlift Es. do 3 xput. unfold malloc_bytes.
  xalloc ORC9; [|xfrees; xnull ].
  xalloc ORC10; xalloc ORC11;
    [|xfrees;
      xnull ..].
  do 5 xgetd.
  assert (Hp : forall x y, 0 <= x < w -> 0 <= y < h ->
     pixel_ok (half_window sigma) (fst (measures (g1 x y) (g2 x y) (g3 x y))) (snd (measures (g1 x y) (g2 x y) (g3 x y))) x y).
  { intros x y Hx Hy. apply pixel_measures; [exact Hk | exact (Hpix x y Hx Hy)]. }
  destruct (measure_all_ok (half_window sigma) _ _ _ _ _ _ (bnew (w * h)) (bnew (w * h)) S1 S2 S3 eq_refl eq_refl Hp)
    as (wv & qv & mw & mq & Em & V1 & V2 & M1 & M2).
  xlift Em. cbv iota beta. xput. xput. xgetb.
  destruct (write_bytes_ok wv qv _ _ mw mq (bnew (w * h * 2)) V1 V2 M1 M2) as (b' & Eb & Lb & Hb').
  { intros x y Hx Hy. destruct (Hp x y Hx Hy) as (I1 & I2 & R1 & R2 & _). repeat split; try apply I1; try apply I2; lra. }
  { reflexivity. }
  xlift Eb. unfold put_bytes. xput. xfrees. xfrees.
  eapply ext_ret; [assumption|cbn [nth]; reflexivity|reflexivity|clear; lia|].
  exact (picture_ok (half_window sigma) (fun x y => fst (measures (g1 x y) (g2 x y) (g3 x y)))
    (fun x y => snd (measures (g1 x y) (g2 x y) (g3 x y))) mw mq b' Hp M1 M2 Lb Hb').
Qed.

(** ** Pictures lower than half the window *)
Lemma for_fail {T} (P : Z -> T -> Prop) mid hi (body : Z -> T -> res T) (e : ub) : forall n lo s,
  n = Z.to_nat (mid - lo) -> lo <= mid < hi -> P lo s ->
  (forall i s, lo <= i < mid -> P i s -> exists s', body i s = Ok s' /\ P (i + 1) s') ->
  (forall s, P mid s -> body mid s = UB e) ->
  for_ lo hi body s = UB e.
Proof.
  induction n as [|n IH]; intros lo s En Hl H0 Hbd Hf; rewrite for_step by lia.
  - replace lo with mid in * by lia. now rewrite Hf.
  - destruct (Hbd lo s ltac:(lia) H0) as (s' & E & H1). rewrite E. cbn [bind]. apply IH; auto; try lia.
    intros i s1 Hi. apply Hbd. lia.
Qed.

Lemma box_sum_oob k a1 a2 a3 f1 f2 f3 : h < k -> 2 * k < w ->
  grid w h a1 f1 -> grid w h a2 f2 -> grid w h a3 f3 ->
  box_sum w k k k (a1, a2, a3) = UB OutOfBounds.
Proof.
  intros Hk Hkw G1 G2 G3. unfold box_sum. pose proof wh32 as [W1 W2].
  set (P := fun ky (t : f64 * f64 * f64 * Z) => snd t = (ky + k) * (2 * k + 1)).
  eapply (for_fail P (h - k) (k + 1)) with (n := Z.to_nat (h - k - - k)); auto; try lia.
  - unfold P. cbn [snd]. lia.
  - intros ky s Hky Es.
    set (P' := fun kx (t : f64 * f64 * f64 * Z) => snd t = (ky + k) * (2 * k + 1) + (kx + k)).
    match goal with |- exists s', for_ (- k) (k + 1) ?bd s = _ /\ _ =>
      destruct (for_inv P' (- k) (k + 1) bd s) as (s' & E & Q); [lia| | |] end.
    + unfold P', P in *. lia.
    + intros kx [[[s1 s2] s3] c] Hkx Q. unfold P' in Q. cbn [snd] in Q. unfold INT_MAX in *.
      pose proof (rm_bound w h (k + kx) (k + ky) ltac:(lia) ltac:(lia)).
      replace (s32 _) with ((k + ky) * w + (k + kx)).
      2: { rewrite (u32_small (k + ky)) by lia. rewrite (u32_small (k + kx)) by lia.
           rewrite (u32_small ((k + ky) * w)) by nia. rewrite u32_small by lia. rewrite s32_small; auto. unfold INT_MIN, INT_MAX. lia. }
      rewrite (grid_load w h a1 f1 _ _ G1), (grid_load w h a2 f2 _ _ G2), (grid_load w h a3 f3 _ _ G3) by lia. cbn [bind].
      rewrite ck32_ok by (unfold INT_MIN, INT_MAX; nia). cbn [bind]. eexists. split; [reflexivity|].
      unfold P'. cbn [snd]. lia.
    + exists s'. split; auto. unfold P, P' in *. lia.
  - intros [[[s1 s2] s3] c] _. rewrite for_step by lia.
    replace (s32 _) with (w * h).
    2: { unfold INT_MAX in *. replace (k + (h - k)) with h by lia. replace (k + - k) with 0 by lia.
         rewrite (u32_small h) by lia. rewrite (u32_small 0) by lia. rewrite (u32_small (h * w)) by nia. rewrite u32_small by nia.
         rewrite s32_small; [lia|]. unfold INT_MIN, INT_MAX. nia. }
    unfold load at 1, inb. destruct G1 as [L1 _]. rewrite L1.
    replace ((0 <=? w * h) && (w * h <? w * h)) with false by lia. reflexivity.
Qed.

Lemma smooth_oob k a1 a2 a3 f1 f2 f3 o : h < k -> 2 * k < w ->
  grid w h a1 f1 -> grid w h a2 f2 -> grid w h a3 f3 ->
  smooth w h k (a1, a2, a3) o = UB OutOfBounds.
Proof.
  intros Hk Hkw G1 G2 G3. pose proof wh32 as [W1 W2]. unfold INT_MAX in W1, W2. unfold smooth.
  assert (E : u32 (h - k) = 4294967296 + (h - k)) by (unfold u32, U32; replace (h - k) with (4294967296 + (h - k) + (-1) * 4294967296) at 1 by ring; rewrite Z.mod_add by lia; apply Z.mod_small; lia).
  rewrite E. rewrite (u32_small k), (u32_small (w - k)) by lia. rewrite for_u32_small by lia. rewrite for_step by lia.
  rewrite for_u32_small by lia. rewrite for_step by lia. destruct o as [[o1 o2] o3].
  rewrite (box_sum_oob k a1 a2 a3 f1 f2 f3) by auto. reflexivity.
Qed.

Lemma foerstner_small sigma s d : wf s -> mem s d = Some (OBytes b) -> sigma_ok sigma ->
  h < half_window sigma -> 2 * half_window sigma < w -> (forall n, orc s n = true) ->
  foerstner_corner w h (Ptr d) sigma s = UB OutOfBounds.
Proof.
  intros W Hd Hs Hkh Hkw Ho. pose proof wh32 as [W1 W2].
  destruct (kernel_ok sigma Hs) as (ks & Ek & Eh & Hk).
  unfold foerstner_corner. destruct (Z.eqb_spec w 0); [lia|]. destruct (Z.eqb_spec h 0); [lia|]. cbn [is_null orb].
  assert (N32 : u32 (w * h) = w * h) by (apply u32_small; unfold INT_MAX in *; nia).
  rewrite !N32. rewrite (ext_nil s W) at 1.
  assert (G0 : grid w h (bconst (w * h) d0) (fun _ _ => d0)) by (apply grid_const; lia).
  do 2 (rewrite ext_alloc_yes by apply Ho; cbv beta; xcbn).
  xold. xgetd. xgetd.
  destruct (gradients_ok _ _ G0 G0) as (g & Eg & Gx & Gy). xlift Eg. unfold put_dbl. xput. xput.
  do 3 (rewrite ext_alloc_yes by apply Ho; cbv beta; xcbn).
  xgetd. xgetd. xgetd. xgetd. xgetd.
  destruct (products_ok (fst g) (snd g) (bnew (w * h)) (bnew (w * h)) (bnew (w * h)) fx fy Gx Gy eq_refl eq_refl eq_refl)
    as (a & Ea & Ax & Axy & Ay). xlift Ea. xput. xput. xput. xlift Ek. rewrite Eh.
  do 3 (rewrite ext_alloc_yes by apply Ho; cbv beta; xcbn).
  do 6 xgetd.
  unfold bindM at 1. rewrite (smooth_oob _ _ _ _ _ _ _ _ Hkh Hkw Ax Axy Ay). reflexivity.
Qed.
End Picture.

Lemma foerstner_rejects w h sigma s p : wf s -> p = Null \/ w = 0 \/ h = 0 -> returns_null s (foerstner_corner w h p sigma s).
Proof.
  intros W H. unfold foerstner_corner.
  assert (E : is_null p || (w =? 0) || (h =? 0) = true).
  { destruct H as [->|[->| ->]]; cbn [is_null Z.eqb orb]; auto; now rewrite ?orb_true_r. }
  rewrite E. now apply returns_null_ret.
Qed.

(** ** Concrete pictures *)
Lemma half_window_c sigma : is_finite (dmul (d_of_Z 3) sigma) = true ->
  half_window sigma = Z.max 3 (Z.lor (Btrunc (dmul (d_of_Z 3) sigma)) 1) / 2.
Proof. intros F. unfold half_window. now rewrite (btrunc_R _ _ (isd_finite _ F)). Qed.
Lemma sigma_half : sigma_ok (lit 1 2) /\ half_window (lit 1 2) = 1.
Proof.
  split.
  - split; [vm_compute; reflexivity|]. rewrite <- SF2R_B2SF.
    replace (B2SF (lit 1 2)) with (SpecFloat.S754_finite false 4503599627370496 (-53)) by (vm_compute; reflexivity).
    unfold SF2R, F2R. cbn. lra.
  - rewrite half_window_c by (vm_compute; reflexivity). vm_compute. reflexivity.
Qed.
Lemma sigma_3_2 : sigma_ok (lit 3 2) /\ half_window (lit 3 2) = 2.
Proof.
  split.
  - split; [vm_compute; reflexivity|]. rewrite <- SF2R_B2SF.
    replace (B2SF (lit 3 2)) with (SpecFloat.S754_finite false 6755399441055744 (-52)) by (vm_compute; reflexivity).
    unfold SF2R, F2R. cbn. lra.
  - rewrite half_window_c by (vm_compute; reflexivity). vm_compute. reflexivity.
Qed.

(** A bright square in the lower right of a black picture *)
Definition square40 : list Z :=
  [0;0;0;0;0; 0;0;0;0;0; 0;0;40;40;40; 0;0;40;40;40; 0;0;40;40;40].
(** A slope: 10 + 5 x + 7 y *)
Definition ramp : list Z := [10;15;20;25;30; 17;22;27;32;37; 24;29;34;39;44].

Lemma foerstner_safe w h sigma s p b :
  0 < w -> 0 < h -> w * h <= INT_MAX -> sigma_ok sigma ->
  half_window sigma <= w -> half_window sigma <= h ->
  wf s -> holds s p b -> image (w * h) b ->
  returns_fresh s (foerstner_corner w h p sigma s) (corner_picture w h (half_window sigma) b).
Proof. intros Hw Hh Hn Hs Hkw Hkh W (d & -> & Hd) Hb. now apply foerstner_ok. Qed.
Lemma foerstner_low w h sigma s p b :
  0 < w -> 0 < h -> w * h <= INT_MAX -> sigma_ok sigma ->
  h < half_window sigma -> 2 * half_window sigma < w -> (forall n, orc s n = true) ->
  wf s -> holds s p b -> image (w * h) b ->
  foerstner_corner w h p sigma s = UB OutOfBounds.
Proof. intros Hw Hh Hn Hs Hkw Hkh Ho W (d & -> & Hd) Hb. now apply (foerstner_small w h b). Qed.

Lemma peak_254 w h k b b' x y :
  0 < w -> 0 < h -> k <= 5000 -> corner_picture w h k b b' -> 0 <= x < w -> 0 <= y < h ->
  largest w h (strength b w h k) (strength b w h k x y) -> (1 / 1000 <= strength b w h k x y)%R ->
  pix b' w 2 x y 0 = Some 254 \/ pix b' w 2 x y 0 = Some 255.
Proof.
  intros Hw Hh Hk (_ & _ & Sh) Hx Hy La Hm. destruct (Sh Hk) as [S1 _].
  destruct (S1 _ La Hm x y Hx Hy) as (v & Ev & Bv). rewrite Ev.
  replace (255 * strength b w h k x y / strength b w h k x y)%R with 255%R in Bv by (field; lra).
  assert (253 < v < 256) by (split; apply lt_IZR; lra).
  assert (v = 254 \/ v = 255) as [-> | ->] by lia; auto.
Qed.

Lemma st1_holds l : holds (st1 l) (Ptr 0) (of_list l) /\ wf (st1 l).
Proof.
  split; [exists 0; split; reflexivity|]. intros i Hi. cbn in *. destruct i; try lia; reflexivity.
Qed.

Lemma upto5 (P : Z -> Prop) n : P 0 -> P 1 -> P 2 -> P 3 -> P 4 -> n <= 5 -> forall x, 0 <= x < n -> P x.
Proof. intros. assert (x = 0 \/ x = 1 \/ x = 2 \/ x = 3 \/ x = 4) as [->|[->|[->|[->| ->]]]] by lia; auto. Qed.

(** [strength] in numbers *)
Lemma strength_c b w h k x y d t : fits w h k x y = true -> tens_det b w h k x y = d -> tens_tr b w h k x y = t -> t <> 0 ->
  strength b w h k x y = (IZR d / (IZR (64 * ((2 * k + 1) * (2 * k + 1))) * IZR t))%R.
Proof. intros F D T N. unfold strength. rewrite F, T, D. destruct (Z.eqb_spec t 0); [lia|reflexivity]. Qed.
Lemma strength_0 b w h k x y : fits w h k x y = false \/ tens_tr b w h k x y = 0 \/ tens_det b w h k x y = 0 ->
  strength b w h k x y = 0%R.
Proof.
  intros H. unfold strength. destruct (fits w h k x y); cbn [andb]; auto.
  destruct (Z.eqb_spec (tens_tr b w h k x y) 0); cbn [negb]; auto.
  destruct H as [H|[H|H]]; try discriminate; try lia. rewrite H. unfold Rdiv. ring.
Qed.

Ltac num_strength d t := rewrite (strength_c _ _ _ _ _ _ d t) by (first [vm_compute; reflexivity | lia]).
Lemma square_22 : strength (of_list square40) 5 5 1 2 2 = (6266880000 / (576 * 166400))%R.
Proof. num_strength 6266880000 166400. reflexivity. Qed.
Lemma square_largest : largest 5 5 (strength (of_list square40) 5 5 1) (strength (of_list square40) 5 5 1 2 2).
Proof.
  split.
  - rewrite square_22.
    intros x y Hx Hy. revert y Hy. revert x Hx.
    apply (upto5 (fun x => forall y, 0 <= y < 5 -> (strength (of_list square40) 5 5 1 x y <= 6266880000 / (576 * 166400))%R) 5); try lia;
      (apply upto5; [| | | | |lia]);
      try (rewrite strength_0 by (left; reflexivity); lra).
    + num_strength 368640000 64000. cbn. lra.
    + num_strength 2007040000 115200. cbn. lra.
    + num_strength 911360000 96000. cbn. lra.
    + num_strength 2007040000 115200. cbn. lra.
    + num_strength 6266880000 166400. cbn. lra.
    + num_strength 2959360000 121600. cbn. lra.
    + num_strength 911360000 96000. cbn. lra.
    + num_strength 2959360000 121600. cbn. lra.
    + num_strength 1392640000 80000. cbn. lra.
  - exists 2, 2. repeat split; lia || reflexivity.
Qed.

Lemma square_ex :
  (5 * 5 <= INT_MAX /\ sigma_ok (lit 1 2) /\ half_window (lit 1 2) = 1 /\ wf (st1 square40) /\
   holds (st1 square40) (Ptr 0) (of_list square40) /\ image (5 * 5) (of_list square40)) /\
  largest 5 5 (strength (of_list square40) 5 5 1) (strength (of_list square40) 5 5 1 2 2) /\
  (1 / 1000 <= strength (of_list square40) 5 5 1 2 2)%R.
Proof.
  split; [|split; [exact square_largest|rewrite square_22; lra]].
  split; [unfold INT_MAX; lia|]. split; [apply sigma_half|]. split; [apply sigma_half|].
  split; [apply wf_st1|]. split; [apply holds_st1|apply image_of_list; reflexivity].
Qed.
Lemma small_ex : sigma_ok (lit 3 2) /\ half_window (lit 3 2) = 2 /\ (forall n, orc (st1 [1; 2; 3; 4; 5]) n = true) /\
  wf (st1 [1; 2; 3; 4; 5]) /\ holds (st1 [1; 2; 3; 4; 5]) (Ptr 0) (of_list [1; 2; 3; 4; 5]) /\
  image (5 * 1) (of_list [1; 2; 3; 4; 5]).
Proof.
  split; [apply sigma_3_2|]. split; [apply sigma_3_2|]. split; [reflexivity|].
  split; [apply wf_st1|]. split; [apply holds_st1|apply image_of_list; reflexivity].
Qed.
Lemma ramp_ex : wf (st1 ramp) /\ holds (st1 ramp) (Ptr 0) (of_list ramp) /\ image (5 * 3) (of_list ramp) /\
  half_window (lit 1 2) = 1.
Proof.
  split; [apply wf_st1|]. split; [apply holds_st1|]. split; [apply image_of_list; reflexivity|]. apply sigma_half.
Qed.

(** From the computed list of bytes to the block *)
Lemma out_bytes_ex r l : out_bytes r = Some l ->
  exists q s' b', r = Ok (Ptr q, s') /\ mem s' q = Some (OBytes b') /\ to_list b' = l.
Proof.
  unfold out_bytes. destruct r as [[p s']| | |]; try discriminate. destruct p as [|q]; try discriminate.
  destruct (mem s' q) as [o|] eqn:E; try discriminate. destruct o; try discriminate.
  intros [= <-]. now exists q, s', b.
Qed.

Lemma to_list_nth {A} (b : buf A) l i v : to_list b = l -> 0 <= i -> nth_error l (Z.to_nat i) = Some v -> bget b i = v.
Proof.
  intros <- Hi E. unfold to_list in E. rewrite nth_error_map in E.
  destruct (nth_error (seq 0 (Z.to_nat (blen b))) (Z.to_nat i)) as [k|] eqn:K; cbn in E; [|discriminate].
  assert (Lt : (Z.to_nat i < length (seq 0 (Z.to_nat (blen b))))%nat) by (apply nth_error_Some; congruence).
  rewrite seq_length in Lt.
  rewrite (nth_error_nth' _ 0%nat) in K by (now rewrite seq_length).
  rewrite seq_nth in K by exact Lt. injection K as <-. injection E as <-. f_equal. lia.
Qed.

Lemma ramp_noise :
  (forall x y, 0 <= x < 5 -> 0 <= y < 3 -> gray1 (of_list ramp) 5 x y = 10 + 5 * x + 7 * y) /\
  (forall x y, 0 <= x < 5 -> 0 <= y < 3 -> strength (of_list ramp) 5 3 1 x y = 0%R) /\
  exists q s' b', foerstner_corner 5 3 (Ptr 0) (lit 1 2) (st1 ramp) = Ok (Ptr q, s') /\
    mem s' q = Some (OBytes b') /\ pix b' 5 2 2 1 0 = Some 255 /\ pix b' 5 2 2 1 1 = Some 255.
Proof.
  split; [|split].
  - intros x y Hx Hy. revert y Hy. revert x Hx.
    apply (upto5 (fun x => forall y, 0 <= y < 3 -> gray1 (of_list ramp) 5 x y = 10 + 5 * x + 7 * y) 5); try lia;
      intros y Hy; assert (y = 0 \/ y = 1 \/ y = 2) as [->|[->| ->]] by lia; vm_compute; reflexivity.
  - intros x y Hx Hy. apply strength_0. right. right. revert y Hy. revert x Hx.
    apply (upto5 (fun x => forall y, 0 <= y < 3 -> tens_det (of_list ramp) 5 3 1 x y = 0) 5); try lia;
      intros y Hy; assert (y = 0 \/ y = 1 \/ y = 2) as [->|[->| ->]] by lia; vm_compute; reflexivity.
  - assert (E : match out_bytes (foerstner_corner 5 3 (Ptr 0) (lit 1 2) (st1 ramp)) with
      | Some l => (nth_error l 14, nth_error l 15) | None => (None, None) end = (Some (Some 255), Some (Some 255)))
      by (vm_compute; reflexivity).
    destruct (out_bytes _) as [l|] eqn:O; [|discriminate].
    destruct (out_bytes_ex _ _ O) as (q & s' & b' & R & M & T). injection E as E1 E2.
    exists q, s', b'. split; [exact R|]. split; [exact M|].
    split; apply (to_list_nth b' l); auto; lia.
Qed.

Lemma square_peak :
  largest 5 5 (strength (of_list square40) 5 5 1) (strength (of_list square40) 5 5 1 2 2) /\
  exists q s' b', foerstner_corner 5 5 (Ptr 0) (lit 1 2) (st1 square40) = Ok (Ptr q, s') /\
    mem s' q = Some (OBytes b') /\ pix b' 5 2 2 2 0 = Some 254 /\
    forall x y, 0 <= x < 5 -> 0 <= y < 5 -> pix b' 5 2 x y 0 <> Some 255.
Proof.
  split; [exact square_largest|].
  assert (E : match out_bytes (foerstner_corner 5 5 (Ptr 0) (lit 1 2) (st1 square40)) with
    | Some l => map (fun i => nth_error l (2 * i)) (seq 0 25) | None => [] end =
    map (fun v => Some (Some v))
      [0;0;0;0;0; 0;39;117;64;0; 0;117;254;164;0; 0;64;164;117;0; 0;0;0;0;0])
    by (vm_compute; reflexivity).
  destruct (out_bytes _) as [l|] eqn:O; [|discriminate].
  destruct (out_bytes_ex _ _ O) as (q & s' & b' & R & M & T).
  assert (G : forall i v, 0 <= i -> nth_error (map (fun i => nth_error l (2 * i)) (seq 0 25)) (Z.to_nat i) = Some (Some (Some v)) ->
    bget b' (i * 2 + 0) = Some v).
  { intros i v Hi N. apply (to_list_nth b' l); auto; [lia|].
    rewrite nth_error_map in N. destruct (nth_error (seq 0 25) (Z.to_nat i)) as [k|] eqn:K; cbn [option_map] in N; [|discriminate].
    injection N as N. rewrite <- N. f_equal.
    assert (Lt : (Z.to_nat i < length (seq 0 25))%nat) by (apply nth_error_Some; congruence).
    rewrite seq_length in Lt. rewrite (nth_error_nth' _ 0%nat) in K by (now rewrite seq_length).
    rewrite seq_nth in K by exact Lt. injection K as <-. lia. }
  rewrite E in G.
  exists q, s', b'. split; [exact R|]. split; [exact M|]. split.
  - apply (G 12); [lia|reflexivity].
  - intros x y Hx Hy. revert y Hy. revert x Hx.
    apply (upto5 (fun x => forall y, 0 <= y < 5 -> pix b' 5 2 x y 0 <> Some 255) 5); try lia;
      (apply upto5; [| | | | |lia]); unfold pix;
      (erewrite G; [|lia|reflexivity]; discriminate).
Qed.
