(** * Reasoning rules for [Heap.v]. *)
From Verif Require Import Base BaseLemmas F Heap Spec.

Lemma bindM_Ok {A B} (m : M A) (k : A -> M B) s a s' :
  m s = Ok (a, s') -> bindM m k s = k a s'.
Proof. unfold bindM; intros ->; reflexivity. Qed.

Lemma bindM_lift {A B} (r : res A) (k : A -> M B) s a :
  r = Ok a -> bindM (lift r) k s = k a s.
Proof. intros ->; reflexivity. Qed.

Lemma later_refl s : wf s -> later s s.
Proof. intros; unfold later; repeat split; auto; lia. Qed.
Lemma later_trans s1 s2 s3 : later s1 s2 -> later s2 s3 -> later s1 s3.
Proof. unfold later; intros (A1&A2&A3&A4) (B1&B2&B3&B4). repeat split; auto; try congruence; lia. Qed.

Lemma same_mem_refl s : same_mem s s.
Proof. intros i; reflexivity. Qed.

Lemma upd_same {A} (f : Z -> option A) i v : upd f i v i = v.
Proof. unfold upd; now rewrite Z.eqb_refl. Qed.
Lemma upd_other {A} (f : Z -> option A) i v j : j <> i -> upd f i v j = f j.
Proof. unfold upd; intros H. apply Z.eqb_neq in H. now rewrite H. Qed.

(** Allocation: either fails leaving memory alone, or yields the fresh block. *)
Lemma alloc_cases s o : wf s ->
  (alloc o s = Ok (Null, mkst (mem s) (nxt s) (orc s) (S (tick s))) /\ orc s (tick s) = false) \/
  (alloc o s = Ok (Ptr (nxt s), mkst (upd (mem s) (nxt s) (Some o)) (nxt s + 1) (orc s) (S (tick s)))
   /\ orc s (tick s) = true).
Proof. intros. unfold alloc. destruct (orc s (tick s)) eqn:E; auto. Qed.

Lemma wf_tick s n : wf s -> wf (mkst (mem s) (nxt s) (orc s) n).
Proof. intros H i; apply H. Qed.

Lemma wf_alloc s o n : wf s -> wf (mkst (upd (mem s) (nxt s) (Some o)) (nxt s + 1) (orc s) n).
Proof. intros H i Hi; simpl in *. rewrite upd_other by lia. apply H; lia. Qed.

Lemma holds_lt s i o : wf s -> mem s i = Some o -> i < nxt s.
Proof. intros H E. destruct (Z.lt_ge_cases i (nxt s)); auto. rewrite H in E by lia. discriminate. Qed.

Lemma get_bytes_ok s i b : mem s i = Some (OBytes b) -> get_bytes (Ptr i) s = Ok (b, s).
Proof. unfold get_bytes, bindM, get_obj; intros ->; reflexivity. Qed.

Lemma put_bytes_ok s i o b : mem s i = Some o ->
  put_bytes (Ptr i) b s = Ok (tt, mkst (upd (mem s) i (Some (OBytes b))) (nxt s) (orc s) (tick s)).
Proof. unfold put_bytes, put_obj; intros ->; reflexivity. Qed.

(** The standard shape of a FlatCV function: allocate one output block, fill it
    from the input block by a pure loop, return it. *)
Lemma returns_fresh_1 s d b n (f : buf Z -> buf Z -> res (buf Z)) (P : buf Z -> Prop) b' :
  wf s -> mem s d = Some (OBytes b) ->
  f b (bnew n) = Ok b' -> P b' ->
  returns_fresh s
    ((p <-- malloc_bytes n ;;
      if is_null p then ret Null else
      src <-- get_bytes (Ptr d) ;;
      dst <-- get_bytes p ;;
      dst' <-- lift (f src dst) ;;
      _ <-- put_bytes p dst' ;;
      ret p) s) P.
Proof.
  intros Hwf Hd Hf HP. unfold malloc_bytes.
  destruct (alloc_cases s (OBytes (bnew n)) Hwf) as [[E O]|[E O]].
  - exists Null, (mkst (mem s) (nxt s) (orc s) (S (tick s))).
    rewrite (bindM_Ok _ _ _ _ _ E). simpl. split; [reflexivity|].
    split; [|split].
    + split; [apply wf_tick; auto|simpl; repeat split; lia].
    + intros i; reflexivity.
    + exists (tick s); split; auto; simpl; lia.
  - rewrite (bindM_Ok _ _ _ _ _ E). cbn beta iota delta [is_null].
    assert (d < nxt s) by (eapply holds_lt; eauto).
    set (s1 := mkst (upd (mem s) (nxt s) (Some (OBytes (bnew n)))) (nxt s + 1) (orc s) (S (tick s))).
    rewrite (bindM_Ok _ _ _ b s1) by (apply get_bytes_ok; simpl; rewrite upd_other by lia; auto). cbv beta.
    rewrite (bindM_Ok _ _ _ (bnew n) s1) by (apply get_bytes_ok; simpl; rewrite upd_same; auto). cbv beta.
    rewrite (bindM_lift _ _ _ _ Hf). cbv beta.
    erewrite bindM_Ok by (apply put_bytes_ok with (o := OBytes (bnew n)); simpl; rewrite upd_same; reflexivity).
    unfold ret. eexists _, _. split; [reflexivity|].
    split; [|split; [|split]].
    + split; [|simpl; repeat split; lia].
      intros i Hi; simpl in *. rewrite upd_other by lia. rewrite upd_other by lia. apply Hwf; lia.
    + apply Hwf; lia.
    + exists b'; simpl; rewrite upd_same; auto.
    + intros j Hj; simpl. now rewrite !upd_other.
Qed.

Lemma free_ok s i o : mem s i = Some o ->
  free (Ptr i) s = Ok (tt, mkst (upd (mem s) i None) (nxt s) (orc s) (tick s)).
Proof. unfold free; intros ->; reflexivity. Qed.

Lemma returns_null_ret s : wf s -> returns_null s (ret Null s).
Proof. intros; exists s; split; [reflexivity|]. split; [now apply later_refl|apply same_mem_refl]. Qed.

(** Symbolic execution of heap code on explicit states. *)
Ltac mem_lookup :=
  cbn [mem nxt orc tick];
  repeat first [rewrite upd_same | rewrite upd_other by lia];
  try eassumption; try reflexivity.
Ltac hget := erewrite bindM_Ok; [| eapply get_bytes_ok; mem_lookup ]; cbv beta.
Ltac hput := erewrite bindM_Ok; [| eapply put_bytes_ok; mem_lookup ]; cbv beta; cbn [mem nxt orc tick].
Ltac hfree := erewrite bindM_Ok; [| eapply free_ok; mem_lookup ]; cbv beta; cbn [mem nxt orc tick].
Ltac hlift H := erewrite bindM_lift; [| exact H ]; cbv beta.
(** Split on the outcome of the next allocation. *)
Ltac halloc E O :=
  match goal with |- context [bindM (alloc ?o) _ ?s] =>
    let W := fresh "W" in
    assert (W : wf s); [ | destruct (alloc_cases s o W) as [[E O]|[E O]];
      rewrite (bindM_Ok _ _ _ _ _ E); clear E W; cbn beta iota delta [is_null];
      cbn [mem nxt orc tick] in * ]
  end.
(** Final memory comparisons. *)
Ltac mem_same Hwf :=
  let i := fresh "i" in intros i; cbn [mem]; unfold upd;
  repeat match goal with |- context [?a =? ?b] => destruct (Z.eqb_spec a b) end;
  subst; try lia; try (symmetry; apply Hwf; lia); try (apply Hwf; lia); try reflexivity; auto.
Ltac wf_tac Hwf :=
  let i := fresh "i" in let Hi := fresh "Hi" in
  intros i Hi; cbn [mem nxt] in *; unfold upd;
  repeat match goal with |- context [?a =? ?b] => destruct (Z.eqb_spec a b) end;
  subst; try lia; try reflexivity; apply Hwf; lia.
Ltac later_tac Hwf := split; [wf_tac Hwf | cbn [mem nxt orc tick]; repeat split; lia].

(** Reading off the result of a concrete run. *)
Lemma run_split (r : res (ptr * st)) (P : buf Z -> Prop) :
  match r with
  | Ok (Ptr q, s') => match mem s' q with Some (OBytes b') => P b' | _ => False end
  | _ => False
  end ->
  exists q s' b', r = Ok (Ptr q, s') /\ mem s' q = Some (OBytes b') /\ P b'.
Proof.
  destruct r as [[[|q] s']| | |]; try contradiction.
  destruct (mem s' q) as [[b| | | | | |]|] eqn:E; try contradiction. intros H. exists q, s', b; auto.
Qed.

(** A step whose intermediate block is handed to a second step and then freed. *)
Lemma returns_fresh_pipe s (m : M ptr) (k : ptr -> M ptr) P Q :
  returns_fresh s (m s) P ->
  (forall s1 q b, later s s1 -> mem s q = None -> (forall j, j <> q -> mem s1 j = mem s j) ->
     mem s1 q = Some (OBytes b) -> P b -> returns_fresh s1 (k (Ptr q) s1) Q) ->
  returns_fresh s ((q <-- m ;; if is_null q then ret Null else
                    r <-- k q ;; _ <-- free q ;; ret r) s) Q.
Proof.
  intros (q & s1 & E & L1 & H) K. rewrite (bindM_Ok _ _ _ _ _ E). destruct q as [|q].
  { change (is_null Null) with true. cbv iota. exists Null, s1. auto. }
  change (is_null (Ptr q)) with false. cbv iota.
  destruct H as (Mq & (b & Eb & Pb) & Mo).
  destruct (K s1 q b L1 Mq Mo Eb Pb) as (r & s2 & E2 & L2 & H2).
  rewrite (bindM_Ok _ _ _ _ _ E2).
  assert (Hq2 : mem s2 q = Some (OBytes b)).
  { destruct r as [|r]; [destruct H2 as [H2 _]; rewrite H2; auto|].
    destruct H2 as (A & _ & C). rewrite C; auto. intros ->; congruence. }
  erewrite bindM_Ok; [|eapply free_ok; exact Hq2]. cbv beta.
  exists r, (mkst (upd (mem s2) q None) (nxt s2) (orc s2) (tick s2)). split; [reflexivity|].
  destruct L1 as (W1 & O1 & T1 & N1). destruct L2 as (W2 & O2 & T2 & N2).
  split.
  { split; [|cbn; repeat split; try congruence; lia].
    intros i Hi'. cbn [mem nxt] in *. unfold upd. destruct (i =? q); auto. }
  destruct r as [|r].
  - destruct H2 as [H2 [n [Hn On]]]. split.
    + intros i. cbn [mem]. unfold upd. destruct (Z.eqb_spec i q) as [->|]; [auto|]. rewrite H2. auto.
    + exists n. cbn [tick]. split; [lia|]. rewrite <- O1. auto.
  - destruct H2 as (A & (b' & Eb' & Qb') & C).
    assert (r <> q) by (intros ->; congruence).
    split; [rewrite <- Mo by auto; auto|]. split.
    + exists b'. split; [cbn [mem]; rewrite upd_other by auto; auto|exact Qb'].
    + intros j Hj. cbn [mem]. unfold upd. destruct (Z.eqb_spec j q) as [->|]; [auto|]. rewrite C by auto. auto.
Qed.
