(** * P_Over: a state with some blocks more than another one *)
From Coq Require Import Sorting.Permutation.
From Verif Require Import Base BaseLemmas F Heap Spec HeapLemmas Spec_Resize Spec_Draw Spec_Trim.
Local Open Scope Z_scope.

Fixpoint look (L : list (Z * obj)) (i : Z) : option obj :=
  match L with [] => None | (j, o) :: L => if i =? j then Some o else look L i end.

(** [s'] is [s] with the blocks of [L] added. *)
Definition over (s : st) (L : list (Z * obj)) (s' : st) : Prop :=
  wf s /\ later s s' /\ NoDup (map fst L) /\ (forall j, In j (map fst L) -> mem s j = None) /\
  forall i, mem s' i = match look L i with Some o => Some o | None => mem s i end.

Lemma over_nil s : wf s -> over s [] s.
Proof. intros W. split; [auto|]. split; [now apply later_refl|]. split; [constructor|]. split; [intros j []|]. reflexivity. Qed.

Lemma look_in L i o : look L i = Some o -> In (i, o) L.
Proof.
  induction L as [|[j p] L IH]; cbn; [discriminate|]. destruct (Z.eqb_spec i j); intros H; [inversion H; subst; auto|auto].
Qed.
Lemma in_look L i o : NoDup (map fst L) -> In (i, o) L -> look L i = Some o.
Proof.
  induction L as [|[j p] L IH]; intros N H; [destruct H|]. cbn in N. inversion N as [|? ? Nin N']; subst. cbn.
  destruct H as [H|H]; [inversion H; subst; now rewrite Z.eqb_refl|].
  destruct (Z.eqb_spec i j) as [->|]; [|auto]. exfalso. apply Nin. now apply (in_map fst) in H.
Qed.
Lemma look_none L i : look L i = None <-> ~ In i (map fst L).
Proof.
  induction L as [|[j p] L IH]; cbn; [tauto|]. destruct (Z.eqb_spec i j) as [->|N]; [split; [discriminate|tauto]|].
  rewrite IH. split; [intros H [E|E]; [congruence|auto]|tauto].
Qed.
Lemma look_perm L L' i : NoDup (map fst L) -> Permutation L L' -> look L' i = look L i.
Proof.
  intros N P. assert (N' : NoDup (map fst L')) by (eapply Permutation_NoDup; [apply Permutation_map; exact P|auto]).
  destruct (look L i) as [o|] eqn:E.
  - apply in_look; auto. apply (Permutation_in _ P). now apply look_in.
  - apply look_none. apply look_none in E. intros H. apply E.
    apply (Permutation_in _ (Permutation_sym (Permutation_map fst P))). auto.
Qed.

Lemma over_perm s L L' s' : Permutation L L' -> over s L s' -> over s L' s'.
Proof.
  intros P (W & La & N & Fr & M). split; [auto|]. split; [auto|].
  split; [eapply Permutation_NoDup; [apply Permutation_map; exact P|auto]|].
  split; [|intros i; rewrite (look_perm L L' i N P); apply M].
  intros j Hj. apply Fr. apply (Permutation_in _ (Permutation_sym (Permutation_map fst P))). auto.
Qed.

Lemma over_at s L s' i o : over s L s' -> In (i, o) L -> mem s' i = Some o.
Proof. intros (W & La & N & Fr & M) H. rewrite M, (in_look _ _ _ N H). reflexivity. Qed.
Lemma over_old s L s' i o : over s L s' -> mem s i = Some o -> mem s' i = Some o.
Proof.
  intros (W & La & N & Fr & M) H. rewrite M. destruct (look L i) as [o'|] eqn:E; [|auto].
  apply look_in, (in_map fst) in E. cbn [fst] in E. rewrite (Fr _ E) in H. discriminate.
Qed.
Lemma over_holds s L s' p b : over s L s' -> holds s p b -> holds s' p b.
Proof. intros O (i & -> & H). exists i. split; auto. eapply over_old; eauto. Qed.
Lemma over_holds_in s L s' i b : over s L s' -> In (i, OBytes b) L -> holds s' (Ptr i) b.
Proof. intros O H. exists i. split; auto. eapply over_at; eauto. Qed.
Lemma over_wf s L s' : over s L s' -> wf s'.
Proof. intros (W & La & N & Fr & M). apply La. Qed.
Lemma over_orc s L s' : over s L s' -> (forall n, orc s n = true) -> forall n, orc s' n = true.
Proof. intros (W & La & N & Fr & M) H n. destruct La as (_ & E & _). rewrite E. apply H. Qed.
(** What was there before is still there. *)
Lemma over_keeps s L s' : over s L s' -> forall i, mem s i <> None -> mem s' i = mem s i.
Proof. intros O i H. destruct (mem s i) as [o|] eqn:E; [|congruence]. eapply over_old; eauto. Qed.

(** A step that adds the blocks [K] *)
Lemma over_add s L s1 K s2 : over s L s1 -> over s1 K s2 -> over s (K ++ L) s2.
Proof.
  intros (W & La & N & Fr & M) (W1 & La1 & N1 & Fr1 & M1).
  split; [auto|]. split; [eapply later_trans; eauto|].
  assert (D : forall j, In j (map fst K) -> mem s j = None /\ ~ In j (map fst L)).
  { intros j Hj. specialize (Fr1 _ Hj). rewrite M in Fr1. destruct (look L j) eqn:E; [discriminate|].
    split; auto. now apply look_none. }
  split.
  - rewrite map_app. clear - N N1 D. induction (map fst K) as [|a K' IH]; cbn; [auto|].
    inversion N1; subst. constructor; [|apply IH; auto; intros; apply D; cbn; auto].
    rewrite in_app_iff. intros [H|H]; [auto|]. destruct (D a); cbn; auto.
  - split.
    + intros j. rewrite map_app, in_app_iff. intros [H|H]; [apply D; auto|auto].
    + intros i. rewrite M1, M.
      assert (look (K ++ L) i = match look K i with Some o => Some o | None => look L i end) as ->.
      { clear. induction K as [|[j o] K IH]; cbn; [auto|]. destruct (i =? j); auto. }
      destruct (look K i); auto.
Qed.

Definition blk (i : Z) (b : buf Z) : Z * obj := (i, OBytes b).

Lemma one_block s i o s' : wf s -> later s s' -> mem s i = None -> mem s' i = Some o ->
  (forall j, j <> i -> mem s' j = mem s j) -> over s [(i, o)] s'.
Proof.
  intros W La H0 H1 Ho. split; [auto|]. split; [auto|]. split; [repeat constructor; intros []|].
  split; [intros j [<-|[]]; auto|]. intros j. cbn. destruct (Z.eqb_spec j i) as [->|Hn]; auto.
Qed.

Lemma no_failure s s' : (forall n, orc s n = true) -> ~ alloc_failed s s'.
Proof. intros H (n & _ & E). rewrite H in E. discriminate. Qed.

Lemma over_fresh s L s1 run P : over s L s1 -> (forall n, orc s n = true) -> returns_fresh s1 run P ->
  exists i s2 b, run = Ok (Ptr i, s2) /\ P b /\ over s ((i, OBytes b) :: L) s2.
Proof.
  intros O A (p & s2 & E & La & H). pose proof (over_wf _ _ _ O). pose proof (over_orc _ _ _ O A) as A1. destruct p as [|i].
  - destruct H as [_ F]. now apply no_failure in F.
  - destruct H as (N & (b & M & Pb) & Ot). exists i, s2, b. split; [auto|]. split; [auto|].
    apply (over_add _ _ _ [(i, OBytes b)] _ O). now apply one_block.
Qed.

Lemma over_sized s L s1 run ow oh P : over s L s1 -> (forall n, orc s n = true) -> Spec_Resize.returns_sized s1 run ow oh P ->
  exists i s2 b, run = Ok ((Ptr i, ow, oh), s2) /\ P b /\ over s ((i, OBytes b) :: L) s2.
Proof.
  intros O A (p & s2 & E & La & H). pose proof (over_wf _ _ _ O). pose proof (over_orc _ _ _ O A) as A1. destruct p as [|i].
  - destruct H as [_ F]. now apply no_failure in F.
  - destruct H as (N & (b & M & Pb) & Ot). exists i, s2, b. split; [auto|]. split; [auto|].
    apply (over_add _ _ _ [(i, OBytes b)] _ O). now apply one_block.
Qed.

Lemma over_sized' s L s1 run P : over s L s1 -> (forall n, orc s n = true) -> Spec_Trim.returns_sized s1 run P ->
  exists i ow oh s2 b, run = Ok ((Ptr i, ow, oh), s2) /\ P ow oh b /\ over s ((i, OBytes b) :: L) s2.
Proof.
  intros O A (p & ow & oh & s2 & E & La & H). pose proof (over_wf _ _ _ O). pose proof (over_orc _ _ _ O A) as A1. destruct p as [|i].
  - destruct H as [_ F]. now apply no_failure in F.
  - destruct H as (N & (b & M & Pb) & Ot). exists i, ow, oh, s2, b. split; [auto|]. split; [auto|].
    apply (over_add _ _ _ [(i, OBytes b)] _ O). now apply one_block.
Qed.

Lemma over_alloc s L s1 o : over s L s1 -> (forall n, orc s n = true) ->
  exists i s2, alloc o s1 = Ok (Ptr i, s2) /\ over s ((i, o) :: L) s2.
Proof.
  intros O A. pose proof (over_wf _ _ _ O) as W1. pose proof (over_orc _ _ _ O A) as A1.
  unfold alloc. rewrite A1. eexists _, _. split; [reflexivity|].
  apply (over_add _ _ _ [(nxt s1, o)] _ O). apply one_block; auto.
  - split; [now apply wf_alloc|]. cbn. repeat split; lia.
  - apply W1. lia.
  - cbn. apply upd_same.
  - intros j Hj. cbn. now apply upd_other.
Qed.

Lemma over_upd s i o o' L s1 : over s ((i, o) :: L) s1 ->
  over s ((i, o') :: L) (mkst (upd (mem s1) i (Some o')) (nxt s1) (orc s1) (tick s1)).
Proof.
  intros (W & (W1 & E1 & T1 & N1) & N & Fr & M). split; [auto|]. split; [|split; [exact N|split; [exact Fr|]]].
  - split; [|cbn; auto]. intros j Hj. cbn in *. rewrite upd_other; [apply W1; auto|].
    intros ->. pose proof (W1 i Hj) as X. rewrite M in X. cbn in X. rewrite Z.eqb_refl in X. discriminate.
  - intros j. cbn. unfold upd. rewrite M. cbn. destruct (j =? i); auto.
Qed.

Lemma over_put s i o o' L s1 : over s ((i, o) :: L) s1 ->
  exists s2, put_obj (Ptr i) o' s1 = Ok (tt, s2) /\ over s ((i, o') :: L) s2.
Proof.
  intros O. unfold put_obj. rewrite (over_at _ _ _ i o O) by (left; auto).
  eexists. split; [reflexivity|]. eapply over_upd; eauto.
Qed.

Lemma over_free s i o L s1 : over s ((i, o) :: L) s1 ->
  exists s2, free (Ptr i) s1 = Ok (tt, s2) /\ over s L s2.
Proof.
  intros O. pose proof (over_at _ _ _ i o O (or_introl eq_refl)) as H.
  rewrite (free_ok _ _ _ H). eexists. split; [reflexivity|].
  destruct O as (W & (W1 & E1 & T1 & N1) & N & Fr & M). split; [auto|]. split; [|split; [|split]].
  - split; [|cbn; auto]. intros j Hj. cbn in *. unfold upd. destruct (j =? i); auto.
  - cbn in N. now inversion N.
  - intros j Hj. apply Fr. cbn; auto.
  - intros j. cbn. unfold upd. rewrite M. cbn. destruct (Z.eqb_spec j i) as [->|]; auto.
    cbn in N. inversion N; subst. apply look_none in H2. rewrite H2. symmetry. apply Fr. cbn; auto.
Qed.

(** ... of a block anywhere in the list *)
Lemma over_free_in s i o L1 L2 s1 : over s (L1 ++ (i, o) :: L2) s1 ->
  exists s2, free (Ptr i) s1 = Ok (tt, s2) /\ over s (L1 ++ L2) s2.
Proof. intros O. eapply over_free. eapply over_perm; [|exact O]. symmetry. apply Permutation_middle. Qed.

Lemma over_rewrites s i b L s1 run Q : over s ((i, OBytes b) :: L) s1 -> rewrites s1 (Ptr i) run Q ->
  exists s2 b', run = Ok (tt, s2) /\ Q b' /\ over s ((i, OBytes b') :: L) s2.
Proof.
  intros O (d & s2 & b' & E & R & M & HQ & Ot & N & Or & T). inversion E; subst d.
  exists s2, b'. split; [auto|]. split; [auto|].
  destruct O as (W & (W1 & E1 & T1 & N1) & ND & Fr & M1). split; [auto|]. split; [|split; [exact ND|split; [exact Fr|]]].
  - split; [|rewrite N, Or, T; auto]. intros j Hj. rewrite N in Hj. destruct (Z.eq_dec j i) as [->|Hn].
    + pose proof (W1 i Hj) as X. rewrite M1 in X. cbn in X. rewrite Z.eqb_refl in X. discriminate.
    + rewrite Ot; auto.
  - intros j. cbn. destruct (Z.eqb_spec j i) as [->|Hn]; [auto|]. rewrite Ot, M1 by auto. cbn.
    destruct (Z.eqb_spec j i); [congruence|auto].
Qed.
