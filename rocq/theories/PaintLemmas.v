(** * PaintLemmas: loops that overwrite a set of positions with given values *)
From Verif Require Import Base BaseLemmas.

(** [b'] is [b] with the positions in [S] overwritten by [v]. *)
Definition paints {A} (v : Z -> A) (S : Z -> Prop) (b b' : buf A) : Prop :=
  blen b' = blen b /\
  forall j, (S j -> bget b' j = Some (v j)) /\ (bget b' j = bget b j \/ (S j /\ bget b' j = Some (v j))).

Lemma paints_refl {A} (v : Z -> A) (S : Z -> Prop) b : (forall j, ~ S j) -> paints v S b b.
Proof. intros H; split; auto. intros j; split; auto. intros Sj; destruct (H j Sj). Qed.

Lemma paints_trans {A} (v : Z -> A) S1 S2 b1 b2 b3 :
  paints v S1 b1 b2 -> paints v S2 b2 b3 -> paints v (fun j => S1 j \/ S2 j) b1 b3.
Proof.
  intros [L1 H1] [L2 H2]; split; [congruence|]. intros j. destruct (H1 j) as [A1 B1], (H2 j) as [A2 B2]. split.
  - intros [H|H]; auto. destruct B2 as [->|[_ ->]]; auto.
  - destruct B2 as [E|[H E]].
    + rewrite E. destruct B1 as [->|[H' ->]]; auto.
    + right; auto.
Qed.

Lemma paints_iff {A} (v : Z -> A) (S S' : Z -> Prop) b b' :
  (forall j, S j <-> S' j) -> paints v S b b' -> paints v S' b b'.
Proof.
  intros E [L H]; split; auto. intros j. destruct (H j) as [H1 H2]. split.
  - intros Sj. apply H1. now apply E.
  - destruct H2 as [|[Sj H2]]; auto. right; split; auto. now apply E.
Qed.

Lemma paints_store {A} (v : Z -> A) b i x : 0 <= i < blen b -> x = v i ->
  exists b', store b i x = Ok b' /\ paints v (fun j => j = i) b b'.
Proof.
  intros Hi ->. rewrite store_ok by auto. eexists; split; [reflexivity|]. split; auto. intros j; split.
  - intros ->. apply bget_bset_same.
  - rewrite bget_bset. destruct (Z.eqb_spec j i) as [->|]; auto.
Qed.

Lemma for_paints {A} (v : Z -> A) (S : Z -> Z -> Prop) lo hi body b L :
  blen b = L ->
  (forall i b, lo <= i < hi -> blen b = L -> exists b', body i b = Ok b' /\ paints v (S i) b b') ->
  exists b', for_ lo hi body b = Ok b' /\ paints v (fun j => exists i, lo <= i < hi /\ S i j) b b'.
Proof.
  intros HL H. destruct (Z.lt_ge_cases hi lo) as [C|C].
  { rewrite for_empty by lia. eexists; split; [reflexivity|]. apply paints_refl. intros j (i & Hi & _); lia. }
  destruct (for_inv (fun k b' => paints v (fun j => exists i, lo <= i < k /\ S i j) b b') lo hi body b) as (b' & E & P); auto.
  - apply paints_refl. intros j (i & Hi & _); lia.
  - intros k b1 Hk P. destruct (H k b1 Hk) as (b2 & E & P2). { destruct P; congruence. }
    exists b2; split; auto. eapply paints_iff; [|eapply paints_trans; eauto].
    intros j. split.
    + intros [(i & Hi & Si)|Sk]; [exists i; split; auto; lia|exists k; split; auto; lia].
    + intros (i & Hi & Si). destruct (Z.eq_dec i k) as [->|]; auto. left; exists i; split; auto; lia.
  - eauto.
Qed.

Lemma bfill_ok {A} (b : buf A) n v : 0 <= n <= blen b ->
  exists b', bfill b n v = Ok b' /\ blen b' = blen b /\
    forall j, bget b' j = if (0 <=? j) && (j <? n) then Some v else bget b j.
Proof.
  intros H. unfold bfill. replace (n <=? blen b) with true by lia. eexists; split; [reflexivity|]. split; reflexivity.
Qed.
