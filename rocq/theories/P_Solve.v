(** * P_Solve: the linear solver of perspectivetransform.c in exact arithmetic *)
From Coq Require Import Reals Lra Lia List.
From Flocq Require Import Core.
From Verif Require Import Base BaseLemmas F FLemmas Heap HeapLemmas Spec Spec_Persp M_Persp.
Import ListNotations.
Local Open Scope nat_scope.

Fixpoint sum (f : nat -> R) (a n : nat) : R := match n with O => 0%R | S n' => (f a + sum f (S a) n')%R end.

Lemma sum_ext f g a n : (forall j, a <= j < a + n -> f j = g j) -> sum f a n = sum g a n.
Proof.
  revert a; induction n as [|n IH]; intros a H; cbn [sum]; auto. rewrite H by lia. f_equal. apply IH. intros; apply H; lia.
Qed.
Lemma sum_split f a n k : sum f a (n + k) = (sum f a n + sum f (a + n) k)%R.
Proof.
  revert a; induction n as [|n IH]; intros a; cbn [sum Nat.add]; [rewrite Nat.add_0_r; ring|].
  rewrite IH. replace (S a + n) with (a + S n) by lia. ring.
Qed.
Lemma sum_zero f a n : (forall j, a <= j < a + n -> f j = 0%R) -> sum f a n = 0%R.
Proof. revert a; induction n as [|n IH]; intros a H; cbn [sum]; auto. rewrite H, IH by (intros; try apply H; lia). ring. Qed.
Lemma sum_lin f g k a n : sum (fun j => f j - k * g j)%R a n = (sum f a n - k * sum g a n)%R.
Proof. revert a; induction n as [|n IH]; intros a; cbn [sum]; [ring|]. rewrite IH. ring. Qed.

Definition sat (y r : list R) : Prop := sum (fun j => nth j r 0 * nth j y 0)%R 0 8 = nth 8 r 0%R.
Definition shape (aug : list (list R)) : Prop := length aug = 8 /\ forall i, i < 8 -> length (row_at aug i) = 9.
Definition sol (y : list R) (aug : list (list R)) : Prop := forall i, i < 8 -> sat y (row_at aug i).
Notation at' := (at_ real_arith).
Definition low (i : nat) (aug : list (list R)) : Prop := forall c k, c < i -> c < k < 8 -> at' aug k c = 0%R.

Lemma set_nth_len {A} (l : list A) i v : length (set_nth l i v) = length l.
Proof. revert i; induction l as [|a l IH]; intros [|i]; cbn; auto. Qed.
Lemma set_nth_get {A} (l : list A) i v k d : i < length l -> nth k (set_nth l i v) d = if Nat.eqb k i then v else nth k l d.
Proof.
  revert i k; induction l as [|a l IH]; intros i k H; cbn in H; [lia|]. destruct i as [|i], k as [|k]; cbn; auto. apply IH; lia.
Qed.

Lemma row_set (aug : list (list R)) i v k : i < length aug -> row_at (set_nth aug i v) k = if Nat.eqb k i then v else row_at aug k.
Proof. intros. unfold row_at. apply set_nth_get; auto. Qed.

Lemma row_sub_len f q : forall i p, length (row_sub real_arith i f q p) = length q.
Proof. induction q as [|a q IH]; intros i p; cbn; auto. destruct p; cbn; auto. destruct i; cbn; rewrite IH; auto. Qed.
Lemma row_sub_nth f q : forall i p j, length p = length q -> j < length q ->
  nth j (row_sub real_arith i f q p) 0%R = if Nat.ltb j i then nth j q 0%R else (nth j q 0 - f * nth j p 0)%R.
Proof.
  induction q as [|a q IH]; intros i [|b p] j L H; cbn in L, H; try lia.
  destruct i as [|i], j as [|j]; cbn [row_sub nth]; auto.
  - rewrite IH by lia. reflexivity.
  - rewrite IH by lia. reflexivity.
Qed.

Lemma row_sub_sat y f q p i : length q = 9 -> length p = 9 -> i < 8 -> (forall c, c < i -> nth c p 0%R = 0%R) ->
  sat y p -> (sat y (row_sub real_arith i f q p) <-> sat y q).
Proof.
  intros Lq Lp Hi Z Hp. unfold sat in *.
  assert (E : forall j, j < 9 -> nth j (row_sub real_arith i f q p) 0%R = (nth j q 0 - f * nth j p 0)%R).
  { intros j Hj. rewrite row_sub_nth by lia. destruct (Nat.ltb_spec j i); auto. rewrite Z by lia. ring. }
  rewrite E by lia.
  rewrite (sum_ext _ (fun j => nth j q 0 * nth j y 0 - f * (nth j p 0 * nth j y 0))%R).
  2:{ intros j Hj. rewrite E by lia. ring. }
  rewrite sum_lin, Hp. split; lra.
Qed.

Lemma find_pivot_ok aug i : forall n k r v, (v = Rabs (at' aug r i)) -> r < 8 -> i <= r -> i <= k -> k + n <= 8 ->
  let '(r', v') := find_pivot real_arith aug i k n r v in v' = Rabs (at' aug r' i) /\ i <= r' < 8.
Proof.
  induction n as [|n IH]; intros k r v Hv Hr Hir Hk Hn; cbn [find_pivot]; [split; auto; lia|].
  destruct (a_lt _ _ _); apply IH; auto; lia.
Qed.

Lemma swap_rows_row (aug : list (list R)) i r k : length aug = 8 -> i < 8 -> r < 8 ->
  row_at (swap_rows aug i r) k = if Nat.eqb k r then row_at aug i else if Nat.eqb k i then row_at aug r else row_at aug k.
Proof.
  intros L Hi Hr. unfold swap_rows. destruct (Nat.eqb_spec r i) as [->|N].
  - destruct (Nat.eqb_spec k i); subst; auto.
  - rewrite row_set by (rewrite set_nth_len; lia). destruct (Nat.eqb_spec k r); auto. rewrite row_set by lia. auto.
Qed.
Lemma swap_rows_len (aug : list (list R)) i r : length (swap_rows aug i r) = length aug.
Proof. unfold swap_rows. destruct (Nat.eqb r i); auto. rewrite !set_nth_len. auto. Qed.

Lemma swap_ok aug i r y : shape aug -> i < 8 -> i <= r < 8 -> low i aug ->
  shape (swap_rows aug i r) /\ low i (swap_rows aug i r) /\ at' (swap_rows aug i r) i i = at' aug r i /\
  (sol y (swap_rows aug i r) <-> sol y aug).
Proof.
  intros [L S] Hi Hr Lw.
  assert (RW : forall k, row_at (swap_rows aug i r) k = row_at aug (if Nat.eqb k r then i else if Nat.eqb k i then r else k)).
  { intros k. rewrite swap_rows_row by lia. destruct (Nat.eqb k r); auto. destruct (Nat.eqb k i); auto. }
  split.
  { split; [rewrite swap_rows_len; auto|]. intros k Hk. rewrite RW. apply S.
    destruct (Nat.eqb k r); try lia. destruct (Nat.eqb k i); lia. }
  split.
  { intros c k Hc Hk. unfold at_. rewrite RW. apply Lw; auto.
    destruct (Nat.eqb_spec k r); try lia. destruct (Nat.eqb_spec k i); lia. }
  split.
  { unfold at_. rewrite RW. rewrite Nat.eqb_refl. destruct (Nat.eqb_spec i r); subst; auto. }
  split; intros H k Hk.
  - specialize (H (if Nat.eqb k r then i else if Nat.eqb k i then r else k)).
    rewrite RW in H. destruct (Nat.eqb_spec k r).
    + subst. destruct (Nat.eqb_spec i r); [subst; apply H; lia|]. rewrite Nat.eqb_refl in H. apply H; lia.
    + destruct (Nat.eqb_spec k i).
      * subst. rewrite Nat.eqb_refl in H. apply H; lia.
      * destruct (Nat.eqb_spec k r); [lia|]. destruct (Nat.eqb_spec k i); [lia|]. apply H; auto.
  - rewrite RW. apply H. destruct (Nat.eqb k r); try lia. destruct (Nat.eqb k i); lia.
Qed.

Lemma eliminate_row i : forall n aug j k, length aug = 8 -> i < j -> j + n <= 8 ->
  length (eliminate real_arith aug i j n) = 8 /\
  row_at (eliminate real_arith aug i j n) k =
    if Nat.leb j k && Nat.ltb k (j + n) then row_sub real_arith i (at' aug k i / at' aug i i)%R (row_at aug k) (row_at aug i) else row_at aug k.
Proof.
  induction n as [|n IH]; intros aug j k L Hij Hjn; cbn [eliminate].
  - split; auto. destruct (Nat.leb_spec j k), (Nat.ltb_spec k (j + 0)); cbn; auto; lia.
  - set (f := a_div real_arith (at' aug j i) (at' aug i i)).
    set (a2 := set_nth aug j (row_sub real_arith i f (row_at aug j) (row_at aug i))).
    assert (R2 : forall m, row_at a2 m = if Nat.eqb m j then row_sub real_arith i f (row_at aug j) (row_at aug i) else row_at aug m)
      by (intros; apply row_set; lia).
    destruct (IH a2 (S j) k) as [L2 R]; [unfold a2; rewrite set_nth_len; auto|lia|lia|].
    split; auto. rewrite R. unfold at_. rewrite !R2.
    destruct (Nat.eqb_spec i j); [lia|].
    destruct (Nat.eqb_spec k j) as [->|N].
    + destruct (Nat.leb_spec (S j) j); [lia|]. cbn [andb]. rewrite Nat.leb_refl. destruct (Nat.ltb_spec j (j + S n)); [|lia]. reflexivity.
    + destruct (Nat.leb_spec (S j) k), (Nat.leb_spec j k), (Nat.ltb_spec k (S j + n)), (Nat.ltb_spec k (j + S n)); cbn; auto; lia.
Qed.

Lemma eliminate_ok i n aug y : shape aug -> i < 8 -> S i + n = 8 -> low i aug -> at' aug i i <> 0%R ->
  shape (eliminate real_arith aug i (S i) n) /\ low (S i) (eliminate real_arith aug i (S i) n) /\
  (sol y (eliminate real_arith aug i (S i) n) <-> sol y aug).
Proof.
  intros [L S'] Hi Hn Lw NZ. set (f := fun k => (at' aug k i / at' aug i i)%R).
  assert (RW : forall k, k < 8 -> row_at (eliminate real_arith aug i (S i) n) k =
    if Nat.leb (S i) k then row_sub real_arith i (f k) (row_at aug k) (row_at aug i) else row_at aug k).
  { intros k Hk. destruct (eliminate_row i n aug (S i) k L) as [_ R]; try lia. rewrite R.
    destruct (Nat.leb_spec (S i) k), (Nat.ltb_spec k (S i + n)); cbn [andb]; auto; lia. }
  assert (PZ : forall c, c < i -> nth c (row_at aug i) 0%R = 0%R) by (intros; apply (Lw c i); lia).
  split.
  { split; [apply eliminate_row; auto; lia|]. intros k Hk. rewrite RW by auto. destruct (Nat.leb (S i) k); auto.
    rewrite row_sub_len. auto. }
  split.
  { intros c k Hc Hk. unfold at_. rewrite RW by lia. destruct (Nat.leb_spec (S i) k).
    - cbn [a_0 real_arith]. rewrite row_sub_nth by (rewrite ?S' by lia; lia).
      destruct (Nat.ltb_spec c i); [apply (Lw c k); lia|].
      assert (c = i) by lia. subst c. unfold f. change (nth i (row_at aug k) 0%R) with (at' aug k i).
      change (nth i (row_at aug i) 0%R) with (at' aug i i). field. auto.
    - apply (Lw c k); lia. }
  split; intros H k Hk.
  - assert (Hpi : sat y (row_at aug i)).
    { specialize (H i Hi). rewrite RW in H by auto. destruct (Nat.leb_spec (S i) i); [lia|]. auto. }
    specialize (H k Hk). rewrite RW in H by auto. destruct (Nat.leb_spec (S i) k); auto.
    apply (row_sub_sat y (f k) (row_at aug k) (row_at aug i) i); auto.
  - rewrite RW by auto. destruct (Nat.leb_spec (S i) k); auto.
    apply (row_sub_sat y (f k) (row_at aug k) (row_at aug i) i); auto.
Qed.

Lemma forward_ok n : forall i aug aug', i + n = 8 -> shape aug -> low i aug -> forward real_arith aug i n = Some aug' ->
  shape aug' /\ low 8 aug' /\ forall y, sol y aug' <-> sol y aug.
Proof.
  induction n as [|n IH]; intros i aug aug' Hi Sh Lw E; cbn [forward] in E.
  - injection E as <-. replace 8 with i at 1 by lia. repeat split; auto; apply Sh.
  - pose proof (find_pivot_ok aug i n (S i) i (a_abs real_arith (at' aug i i)) eq_refl) as FP.
    destruct (find_pivot _ _ _ _ _ _ _) as [r v]. destruct FP as [Ev Hr]; try lia.
    cbn [a_lt a_eps real_arith] in E. destruct (Rlt_bool_spec v (1 / 10000000000)) as [|GE]; [discriminate|].
    assert (NZ : at' aug r i <> 0%R) by (intros Z; rewrite Ev, Z, Rabs_R0 in GE; lra).
    destruct (swap_ok aug i r [] Sh ltac:(lia) Hr Lw) as (S1 & L1 & P1 & _).
    rewrite <- P1 in NZ.
    destruct (eliminate_ok i n (swap_rows aug i r) [] S1 ltac:(lia) ltac:(lia) L1 NZ) as (S2 & L2 & _).
    destruct (IH (S i) _ aug' ltac:(lia) S2 L2 E) as (S3 & L3 & Eq).
    split; auto. split; auto. intros y. rewrite Eq.
    destruct (eliminate_ok i n (swap_rows aug i r) y S1 ltac:(lia) ltac:(lia) L1 NZ) as (_ & _ & E2). rewrite E2.
    apply swap_ok; auto; lia.
Qed.

Lemma back_row_sum aug i : forall xs j acc, back_row real_arith aug i j xs acc =
  (acc - sum (fun k => at' aug i (j + k) * nth k xs 0) 0 (length xs))%R.
Proof.
  assert (Sh : forall f a n, sum f (S a) n = sum (fun k => f (S k)) a n).
  { intros f a n; revert a; induction n as [|n IH]; intros a; cbn [sum]; auto. rewrite IH; auto. }
  induction xs as [|x xs IH]; intros j acc; cbn [back_row length sum]; [ring|].
  rewrite IH, Sh. cbn [nth]. rewrite Nat.add_0_r. cbn [a_sub a_mul real_arith].
  rewrite (sum_ext (fun k => at' aug i (S j + k) * nth k xs 0)%R (fun k => at' aug i (j + S k) * nth k xs 0)%R).
  2:{ intros k _. do 2 f_equal. lia. } ring.
Qed.

Lemma skipn_step {A} (y : list A) i d : i < length y -> skipn i y = nth i y d :: skipn (S i) y.
Proof. revert i; induction y as [|a y IH]; intros i H; cbn in H; [lia|]. destruct i; [reflexivity|]. cbn [skipn nth]. apply IH; lia. Qed.
Lemma nth_skipn' {A} (y : list A) : forall n k d, nth k (skipn n y) d = nth (n + k) y d.
Proof. induction y as [|a y IH]; intros [|n] k d; cbn; auto; try (destruct k; reflexivity). Qed.

Lemma sat_tri aug i y xs : low 8 aug -> i < 8 -> length xs = 7 - i -> skipn (S i) y = xs -> at' aug i i <> 0%R ->
  (sat y (row_at aug i) <->
   nth i y 0%R = (back_row real_arith aug i (S i) xs (at' aug i 8) / at' aug i i)%R).
Proof.
  intros Lw Hi L Sk NZ. rewrite back_row_sum. unfold sat.
  change (nth 8 (row_at aug i) 0%R) with (at' aug i 8).
  assert (EQ : sum (fun j => nth j (row_at aug i) 0 * nth j y 0)%R 0 8 =
    (at' aug i i * nth i y 0 + sum (fun k => at' aug i (S i + k) * nth k xs 0) 0 (length xs))%R).
  { replace 8 with (i + (1 + (7 - i))) by lia. rewrite !sum_split, sum_zero.
    2:{ intros j Hj. change (nth j (row_at aug i) 0%R) with (at' aug i j). rewrite Lw by lia. ring. }
    cbn [sum Nat.add]. change (nth i (row_at aug i) 0%R) with (at' aug i i). rewrite L.
    assert (Sh : forall f a n, sum f a n = sum (fun k => f (a + k)) 0 n).
    { intros f a n; revert f a; induction n as [|n IH]; intros f a; cbn [sum]; auto. rewrite (IH f (S a)), (IH (fun k => f (a + k)) 1).
      rewrite Nat.add_0_r. f_equal. apply sum_ext. intros; f_equal; lia. }
    rewrite (Sh _ (i + 1)). rewrite (sum_ext _ (fun k => at' aug i (S (i + k)) * nth k xs 0)%R).
    2:{ intros k Hk. rewrite <- Sk, nth_skipn'. unfold at_. cbn [a_0 real_arith]. do 2 f_equal; lia. }
    ring. }
  rewrite EQ. set (t := sum _ _ _). clearbody t. clear EQ. generalize dependent (at' aug i i). intros p NZ. set (c := at' aug i 8). clearbody c.
  split.
  - intros <-. field. auto.
  - intros ->. field. auto.
Qed.

Lemma backward_ok aug : low 8 aug -> forall n xs x, n <= 8 -> length xs = 8 - n -> backward real_arith aug n xs = Some x ->
  length x = 8 /\ forall y, length y = 8 -> ((forall i, i < n -> sat y (row_at aug i)) /\ skipn n y = xs <-> y = x).
Proof.
  intros Lw. induction n as [|i IH]; intros xs x Hn L E; cbn [backward] in E.
  - injection E as <-. split; [lia|]. intros y Ly. cbn [skipn]. split; [intros [_ H]; auto|]. intros ->. split; auto. lia.
  - cbn [a_lt a_abs a_eps a_finite a_div real_arith negb] in E.
    destruct (Rlt_bool_spec (Rabs (at' aug i i)) (1 / 10000000000)) as [|GE]; [discriminate|].
    assert (NZ : at' aug i i <> 0%R) by (intros Z; rewrite Z, Rabs_R0 in GE; lra).
    set (v := (back_row real_arith aug i (S i) xs (at' aug i 8) / at' aug i i)%R) in *.
    destruct (IH (v :: xs) x ltac:(lia) ltac:(cbn [length]; lia) E) as [Lx H].
    split; auto. intros y Ly. rewrite <- (H y Ly). rewrite (skipn_step y i 0%R) by lia.
    split.
    + intros [A B]. split; [intros; apply A; lia|]. f_equal; auto.
      apply (sat_tri aug i y xs Lw ltac:(lia) ltac:(lia) B NZ). apply A. lia.
    + intros [A B]. injection B as B1 B2. split; auto. intros k Hk. destruct (Nat.eq_dec k i) as [->|]; [|apply A; lia].
      apply (sat_tri aug i y xs Lw ltac:(lia) ltac:(lia) B2 NZ). auto.
Qed.

Theorem solve_ok aug x : shape aug -> solve_linear_system real_arith aug = Some x ->
  length x = 8 /\ forall y, length y = 8 -> (sol y aug <-> y = x).
Proof.
  intros Sh E. unfold solve_linear_system in E. destruct (forward _ _ _ _) as [aug'|] eqn:EF; [|discriminate].
  destruct (forward_ok 8 0 aug aug' eq_refl Sh ltac:(intros c k; lia) EF) as (S1 & L1 & Eq).
  destruct (backward_ok aug' L1 8 [] x ltac:(lia) eq_refl E) as [Lx H].
  split; auto. intros y Ly. rewrite <- (Eq y), <- (H y Ly). unfold sol. split; [|tauto].
  intros A. split; auto. apply skipn_all2. lia.
Qed.

(** ** The matrix for four pairs of corners *)

Lemma transform_exact src dst m : transform real_arith src dst = Some m ->
  length m = 9 /\ nth 8 m 0%R = 1%R /\ (forall i, i < 9 -> (Rabs (nth i m 0) <= 1000000)%R) /\
  sends m (c_tl src) (c_tl dst) /\ sends m (c_tr src) (c_tr dst) /\ sends m (c_br src) (c_br dst) /\ sends m (c_bl src) (c_bl dst) /\
  forall m', length m' = 9 -> nth 8 m' 0%R = 1%R ->
    sends m' (c_tl src) (c_tl dst) -> sends m' (c_tr src) (c_tr dst) -> sends m' (c_br src) (c_br dst) -> sends m' (c_bl src) (c_bl dst) ->
    m' = m.
Proof.
  destruct src as [[s1 t1] [s2 t2] [s3 t3] [s4 t4]], dst as [[u1 v1] [u2 v2] [u3 v3] [u4 v4]].
  intros E. unfold transform in E. destruct (equations _ _ _) as [aug|] eqn:EE; [|discriminate].
  destruct (solve_linear_system real_arith aug) as [x|] eqn:ES; [|discriminate].
  destruct (existsb _ x) eqn:EX; [discriminate|]. injection E as <-.
  unfold equations in EE. cbn in EE. injection EE as EE.
  assert (Sh : shape aug).
  { rewrite <- EE. split; [reflexivity|]. intros i Hi. do 8 (destruct i as [|i]; [reflexivity|]). lia. }
  destruct (solve_ok aug x Sh ES) as [Lx Sol].
  assert (EQ : forall y1 y2 y3 y4 y5 y6 y7 y8, sol [y1; y2; y3; y4; y5; y6; y7; y8] aug <->
    let m := [y1; y2; y3; y4; y5; y6; y7; y8; 1%R] in
    sends m (s1, t1) (u1, v1) /\ sends m (s2, t2) (u2, v2) /\ sends m (s3, t3) (u3, v3) /\ sends m (s4, t4) (u4, v4)).
  { intros. unfold sol. split.
    - intros H. pose proof (H 0 ltac:(lia)) as H0. pose proof (H 1 ltac:(lia)) as H1. pose proof (H 2 ltac:(lia)) as H2.
      pose proof (H 3 ltac:(lia)) as H3. pose proof (H 4 ltac:(lia)) as H4. pose proof (H 5 ltac:(lia)) as H5.
      pose proof (H 6 ltac:(lia)) as H6. pose proof (H 7 ltac:(lia)) as H7. clear H.
      rewrite <- EE in *. unfold sat, row_at in *. cbn [sum nth] in *. unfold sends. cbn [nth fst snd]. lra.
    - unfold sends. cbn [nth fst snd]. intros [[A1 A2] [[A3 A4] [[A5 A6] [A7 A8]]]] i Hi. rewrite <- EE.
      unfold sat, row_at.
      do 8 (destruct i as [|i]; [cbn [sum nth]; lra|]). lia. }
  clear EE.
  split; [rewrite app_length; cbn; lia|].
  split; [rewrite app_nth2 by lia; rewrite Lx; reflexivity|].
  split.
  { intros i Hi. destruct (Nat.eq_dec i 8) as [->|N].
    - rewrite app_nth2 by lia. rewrite Lx. cbn. rewrite Rabs_R1. lra.
    - rewrite app_nth1 by lia. destruct (Rle_or_lt (Rabs (nth i x 0%R)) 1000000%R) as [|GT]; auto. exfalso.
      assert (T : existsb (fun v => negb (a_finite real_arith v) || a_lt real_arith (a_big real_arith) (a_abs real_arith v)) x = true).
      { apply existsb_exists. exists (nth i x 0%R). split; [apply nth_In; lia|]. cbn. apply Rlt_bool_true. auto. }
      congruence. }
  cbn [c_tl c_tr c_br c_bl].
  assert (Dx : exists y1 y2 y3 y4 y5 y6 y7 y8, x = [y1; y2; y3; y4; y5; y6; y7; y8]).
  { do 8 (destruct x as [|? x]; [discriminate Lx|]). destruct x; [|discriminate Lx]. repeat eexists. }
  destruct Dx as (y1 & y2 & y3 & y4 & y5 & y6 & y7 & y8 & ->). cbn [app].
  destruct (proj1 (EQ y1 y2 y3 y4 y5 y6 y7 y8) (proj2 (Sol [y1; y2; y3; y4; y5; y6; y7; y8] eq_refl) eq_refl)) as (A & B & C & D).
  split; [exact A|]. split; [exact B|]. split; [exact C|]. split; [exact D|].
  intros m' L' N8 A' B' C' D'.
  do 9 (destruct m' as [|? m']; [discriminate L'|]). destruct m'; [|discriminate L']. cbn [nth] in N8. subst.
  assert (S' : sol [r; r0; r1; r2; r3; r4; r5; r6] aug) by (apply EQ; cbv zeta; auto).
  apply Sol in S'; auto. injection S'; intros; subst; reflexivity.
Qed.

(** Doubles: what is returned *)
Lemma backward_len aug : forall n (xs x : list f64), backward f64_arith aug n xs = Some x -> length x = n + length xs.
Proof.
  induction n as [|n IH]; intros xs x E; cbn [backward] in E; [injection E as <-; auto|].
  destruct (a_lt _ _ _); [discriminate|]. destruct (negb _); [discriminate|]. apply IH in E. cbn [length] in E. lia.
Qed.

Lemma transform_bounded src dst m : transform f64_arith src dst = Some m -> bounded m.
Proof.
  unfold transform. destruct (equations _ _ _) as [aug|]; [|discriminate].
  destruct (solve_linear_system f64_arith aug) as [x|] eqn:ES; [|discriminate].
  destruct (existsb _ x) eqn:EX; [discriminate|]. intros E. injection E as <-.
  assert (L : length x = 8).
  { unfold solve_linear_system in ES. destruct (forward _ _ _ _); [|discriminate]. apply backward_len in ES. cbn in ES. lia. }
  assert (A : forall v, In v x -> is_finite v = true /\ (Rabs (B2R v) <= 1000000)%R).
  { intros v Hv. destruct (negb (dfinite v) || dlt (d_of_Z 1000000) (dabs v)) eqn:Ev.
    - exfalso. assert (T : existsb (fun v => negb (dfinite v) || dlt (d_of_Z 1000000) (dabs v)) x = true) by (apply existsb_exists; eauto).
      change (existsb (fun v => negb (dfinite v) || dlt (d_of_Z 1000000) (dabs v)) x = false) in EX. congruence.
    - apply orb_false_iff in Ev. destruct Ev as [E1 E2]. apply negb_false_iff in E1. split; [exact E1|].
      assert (Hd : isd v (B2R v)) by (apply isd_finite; exact E1).
      rewrite (dlt_R _ _ _ _ (d_of_Z_exact 1000000 ltac:(lia)) (dabs_R _ _ Hd)) in E2.
      destruct (Rlt_bool_spec (IZR 1000000) (Rabs (B2R v))); [discriminate|]. auto. }
  assert (E8 : entry (x ++ [F.d1]) 8 = 1%R).
  { unfold entry. rewrite app_nth2 by lia. rewrite L. cbn [Nat.sub nth]. apply isd_d1. }
  cbn [a_1 f64_arith]. split; [split|split].
  - rewrite app_length. cbn. lia.
  - apply Forall_app. split; [apply Forall_forall; intros v Hv; apply A; auto|]. repeat constructor.
  - exact E8.
  - intros i Hi. destruct (Nat.eq_dec i 8) as [->|N]; [rewrite E8, Rabs_R1; lra|].
    unfold entry. rewrite app_nth1 by lia. apply A. apply nth_In. lia.
Qed.

Lemma calculate_ok id src dst s : wf s ->
  falls_back id s (calculate_perspective_transform id src dst s) \/
  returns_matrix s (calculate_perspective_transform id src dst s) bounded \/
  orc s (tick s) = false.
Proof.
  intros Hwf. unfold calculate_perspective_transform, falls_back.
  destruct src as [src|]; [|left; reflexivity]. destruct dst as [dst|]; [|left; reflexivity].
  destruct (transform f64_arith src dst) as [m|] eqn:E; [|left; reflexivity].
  right. destruct (orc s (tick s)) eqn:O; [left|right; reflexivity].
  unfold returns_matrix, bindM, alloc. rewrite O.
  unfold put_obj. cbn [mem]. rewrite upd_same. unfold ret.
  eexists _, _, m. split; [reflexivity|]. split; [later_tac Hwf|]. split; [apply Hwf; lia|]. cbn [mem].
  split; [apply upd_same|]. split; [eapply transform_bounded; eauto|]. intros j Hj. rewrite !upd_other by auto. reflexivity.
Qed.

Lemma calculate_rejects id src dst s :
  (exists p, In p (corner_list src ++ corner_list dst) /\ (is_finite (fst p) = false \/ is_finite (snd p) = false)) ->
  falls_back id s (calculate_perspective_transform id (Some src) (Some dst) s).
Proof.
  intros (p & Hp & Hf). unfold falls_back, calculate_perspective_transform, transform, equations.
  assert (E : forallb (pt_finite f64_arith) (corner_list src) && forallb (pt_finite f64_arith) (corner_list dst) = false).
  { rewrite <- forallb_app. destruct (forallb _ _) eqn:F; auto. rewrite forallb_forall in F. apply F in Hp.
    unfold pt_finite in Hp. apply andb_true_iff in Hp. cbn [a_finite f64_arith] in Hp.
    change (is_finite (fst p) = true /\ is_finite (snd p) = true) in Hp. destruct Hf; destruct Hp; congruence. }
  match goal with |- context [if ?c then _ else _] => change c with (forallb (pt_finite f64_arith) (corner_list src) && forallb (pt_finite f64_arith) (corner_list dst)) end.
  rewrite E. reflexivity.
Qed.
