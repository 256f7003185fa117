(** * Lemmas about [count] *)
From Verif Require Import Base BaseLemmas F Heap Spec.

Lemma count_0 P : count P 0 = 0.
Proof. reflexivity. Qed.
Lemma count_succ P n : 0 <= n -> count P (n + 1) = count P n + (if P n then 1 else 0).
Proof.
  intros. unfold count. replace (Z.to_nat (n + 1)) with (S (Z.to_nat n)) by lia.
  simpl. rewrite Z2Nat.id by lia. reflexivity.
Qed.

Lemma Z_nat_ind (P : Z -> Prop) : P 0 -> (forall n, 0 <= n -> P n -> P (n + 1)) -> forall n, 0 <= n -> P n.
Proof. intros H0 HS n Hn. apply (Zlt_0_ind P); auto. intros x IH Hx.
  destruct (Z.eq_dec x 0) as [->|]; auto. replace x with (x - 1 + 1) by lia. apply HS; [lia|]. apply IH; lia. Qed.

Lemma count_ext P Q n : (forall i, 0 <= i < n -> P i = Q i) -> count P n = count Q n.
Proof.
  destruct (Z.lt_ge_cases n 0) as [Hn|Hn].
  - intros _. unfold count. replace (Z.to_nat n) with 0%nat by lia. reflexivity.
  - revert n Hn. apply (Z_nat_ind (fun n => (forall i, 0 <= i < n -> P i = Q i) -> count P n = count Q n)).
    + reflexivity.
    + intros n Hn IH H. rewrite !count_succ by lia. rewrite IH by (intros; apply H; lia).
      rewrite (H n) by lia. reflexivity.
Qed.

Lemma count_range P n : 0 <= n -> 0 <= count P n <= n.
Proof.
  revert n. apply Z_nat_ind; [rewrite count_0; lia|].
  intros n Hn IH. rewrite count_succ by lia. destruct (P n); lia.
Qed.

Lemma count_all P n : 0 <= n -> (forall i, 0 <= i < n -> P i = true) -> count P n = n.
Proof.
  revert n. apply (Z_nat_ind (fun n => (forall i, 0 <= i < n -> P i = true) -> count P n = n)).
  - reflexivity.
  - intros n Hn IH H. rewrite count_succ by lia. rewrite IH by (intros; apply H; lia).
    rewrite (H n) by lia. lia.
Qed.
Lemma count_none P n : 0 <= n -> (forall i, 0 <= i < n -> P i = false) -> count P n = 0.
Proof.
  revert n. apply (Z_nat_ind (fun n => (forall i, 0 <= i < n -> P i = false) -> count P n = 0)).
  - reflexivity.
  - intros n Hn IH H. rewrite count_succ by lia. rewrite IH by (intros; apply H; lia).
    rewrite (H n) by lia. lia.
Qed.

(** Disjoint union. *)
Lemma count_split (P Q R : Z -> bool) n : 0 <= n ->
  (forall i, 0 <= i < n -> (if P i then 1 else 0) = (if Q i then 1 else 0) + (if R i then 1 else 0)) ->
  count P n = count Q n + count R n.
Proof.
  revert n. apply (Z_nat_ind (fun n =>
    (forall i, 0 <= i < n -> (if P i then 1 else 0) = (if Q i then 1 else 0) + (if R i then 1 else 0)) ->
    count P n = count Q n + count R n)).
  - reflexivity.
  - intros n Hn IH H. rewrite !count_succ by lia. rewrite IH by (intros; apply H; lia).
    specialize (H n). lia.
Qed.

Lemma count_le P Q n : 0 <= n -> (forall i, 0 <= i < n -> P i = true -> Q i = true) -> count P n <= count Q n.
Proof.
  revert n. apply (Z_nat_ind (fun n =>
    (forall i, 0 <= i < n -> P i = true -> Q i = true) -> count P n <= count Q n)).
  - intros; rewrite !count_0; lia.
  - intros n Hn IH H. rewrite !count_succ by lia.
    assert (count P n <= count Q n) by (apply IH; intros; apply H; auto; lia).
    specialize (H n). destruct (P n); destruct (Q n); try lia.
Qed.

Lemma count_pos P n : 0 <= n -> 0 < count P n <-> exists i, 0 <= i < n /\ P i = true.
Proof.
  intros Hn. split.
  - revert n Hn. apply (Z_nat_ind (fun n => 0 < count P n -> exists i, 0 <= i < n /\ P i = true)).
    + rewrite count_0; lia.
    + intros n Hn IH. rewrite count_succ by lia. destruct (P n) eqn:E.
      * exists n; split; auto; lia.
      * intros H. destruct IH as [i [Hi E']]; [lia|]. exists i; split; auto; lia.
  - intros [i [Hi E]]. assert (count (fun j => j =? i) n <= count P n).
    { apply count_le; auto. intros j Hj Ej. apply Z.eqb_eq in Ej; subst; auto. }
    assert (forall m, 0 <= m -> count (fun j => j =? i) m = if i <? m then 1 else 0).
    { apply Z_nat_ind. - rewrite count_0. now replace (i <? 0) with false by lia.
      - intros m Hm IH. rewrite count_succ, IH by lia.
        destruct (Z.eqb_spec m i); destruct (Z.ltb_spec i m); destruct (Z.ltb_spec i (m + 1)); lia. }
    rewrite H0 in H by lia. replace (i <? n) with true in H by lia. lia.
Qed.
