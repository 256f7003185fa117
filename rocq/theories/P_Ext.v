(** * P_Ext: states that extend a given one by a list of blocks *)
From Coq Require Import FunctionalExtensionality.
From Verif Require Import Base BaseLemmas F Heap Spec HeapLemmas.

(** The blocks allocated since [s], in order; [None]: freed since. *)
Definition ext_mem (s : st) (L : list (option obj)) (i : Z) : option obj :=
  if i <? nxt s then mem s i else nth (Z.to_nat (i - nxt s)) L None.
Definition ext (s : st) (L : list (option obj)) (t : nat) : st :=
  mkst (ext_mem s L) (nxt s + Z.of_nat (length L)) (orc s) t.

Lemma ext_nil s : wf s -> s = ext s [] (tick s).
Proof.
  intros W. unfold ext. destruct s as [m n o t]. cbn in *. f_equal; [|lia].
  apply functional_extensionality. intros i. unfold ext_mem. cbn [mem nxt].
  destruct (Z.ltb_spec i n); auto. rewrite W by (cbn; lia). now destruct (Z.to_nat (i - n)).
Qed.

Fixpoint set_nth (k : nat) (v : option obj) (L : list (option obj)) : list (option obj) :=
  match L, k with
  | [], _ => []
  | _ :: L, O => v :: L
  | o :: L, S k => o :: set_nth k v L
  end.
Lemma set_nth_length k v L : length (set_nth k v L) = length L.
Proof. revert k; induction L; intros [|k]; cbn; auto. Qed.
Lemma nth_set_nth k v L j : (k < length L)%nat -> nth j (set_nth k v L) None = if Nat.eqb j k then v else nth j L None.
Proof.
  revert k j; induction L; intros [|k] [|j] H; cbn in *; try lia; auto. apply IHL. lia.
Qed.

Lemma ext_alloc_no {B} s L t o (k : ptr -> M B) : orc s t = false ->
  bindM (alloc o) k (ext s L t) = k Null (ext s L (S t)).
Proof. intros F. unfold bindM, alloc. cbn [orc tick ext mem nxt]. now rewrite F. Qed.
Lemma ext_alloc_yes {B} s L t o (k : ptr -> M B) : orc s t = true ->
  bindM (alloc o) k (ext s L t) = k (Ptr (nxt s + Z.of_nat (length L))) (ext s (L ++ [Some o]) (S t)).
Proof.
  intros E. unfold bindM, alloc. cbn [orc tick ext mem nxt]. rewrite E. f_equal.
  unfold ext. f_equal; [|rewrite app_length; cbn; lia].
  apply functional_extensionality. intros i. unfold upd, ext_mem.
  destruct (Z.eqb_spec i (nxt s + Z.of_nat (length L))) as [->|N].
  - destruct (Z.ltb_spec (nxt s + Z.of_nat (length L)) (nxt s)); [lia|].
    replace (Z.to_nat _) with (length L) by lia. rewrite app_nth2, Nat.sub_diag; auto.
  - destruct (Z.ltb_spec i (nxt s)); auto.
    destruct (Nat.lt_ge_cases (Z.to_nat (i - nxt s)) (length L)).
    + rewrite app_nth1; auto.
    + rewrite (nth_overflow L) by lia. rewrite nth_overflow; auto. rewrite app_length. cbn. lia.
Qed.

Lemma ext_at s L t k o : nth k L None = Some o -> mem (ext s L t) (nxt s + Z.of_nat k) = Some o.
Proof.
  intros H. cbn. unfold ext_mem. destruct (Z.ltb_spec (nxt s + Z.of_nat k) (nxt s)); [lia|].
  replace (Z.to_nat _) with k by lia. auto.
Qed.
Lemma ext_old s L t d o : wf s -> mem s d = Some o -> mem (ext s L t) d = Some o.
Proof.
  intros W H. pose proof (holds_lt _ _ _ W H). cbn. unfold ext_mem. destruct (Z.ltb_spec d (nxt s)); [auto|lia].
Qed.

Lemma nth_lt (L : list (option obj)) k o : nth k L None = Some o -> (k < length L)%nat.
Proof. intros H. destruct (Nat.lt_ge_cases k (length L)); auto. rewrite nth_overflow in H; auto; discriminate. Qed.

Lemma ext_upd s L t k o v : nth k L None = Some o ->
  mkst (upd (mem (ext s L t)) (nxt s + Z.of_nat k) v) (nxt (ext s L t)) (orc (ext s L t)) (tick (ext s L t))
  = ext s (set_nth k v L) t.
Proof.
  intros H. apply nth_lt in H. unfold ext. cbn [mem nxt orc tick].
  rewrite set_nth_length. f_equal. apply functional_extensionality. intros i. unfold upd, ext_mem.
  destruct (Z.eqb_spec i (nxt s + Z.of_nat k)) as [->|N].
  - destruct (Z.ltb_spec (nxt s + Z.of_nat k) (nxt s)); [lia|].
    replace (Z.to_nat _) with k by lia. rewrite nth_set_nth by auto. now rewrite Nat.eqb_refl.
  - destruct (Z.ltb_spec i (nxt s)); auto. rewrite nth_set_nth by auto.
    destruct (Nat.eqb_spec (Z.to_nat (i - nxt s)) k); auto. lia.
Qed.

Lemma ext_free {B} s L t k o (f : unit -> M B) :
  nth k L None = Some o ->
  bindM (free (Ptr (nxt s + Z.of_nat k))) f (ext s L t) = f tt (ext s (set_nth k None L) t).
Proof.
  intros H. erewrite bindM_Ok by (eapply free_ok; apply ext_at; exact H).
  now rewrite (ext_upd _ _ _ _ _ _ H).
Qed.
Lemma ext_free_null {B} s (f : unit -> M B) : bindM (free Null) f s = f tt s.
Proof. reflexivity. Qed.
Lemma ext_put {B} s L t k o o' (f : unit -> M B) :
  nth k L None = Some o ->
  bindM (put_obj (Ptr (nxt s + Z.of_nat k)) o') f (ext s L t) = f tt (ext s (set_nth k (Some o') L) t).
Proof.
  intros H. erewrite bindM_Ok by (unfold put_obj; rewrite (ext_at _ _ _ _ _ H); reflexivity).
  now rewrite (ext_upd _ _ _ _ _ _ H).
Qed.
Lemma ext_get_dbl {B} s L t k b (f : buf f64 -> M B) :
  nth k L None = Some (ODbl b) ->
  bindM (get_dbl (Ptr (nxt s + Z.of_nat k))) f (ext s L t) = f b (ext s L t).
Proof. intros H. unfold get_dbl, bindM, get_obj. now rewrite (ext_at _ _ _ _ _ H). Qed.
Lemma ext_get_bytes {B} s L t k b (f : buf Z -> M B) :
  nth k L None = Some (OBytes b) ->
  bindM (get_bytes (Ptr (nxt s + Z.of_nat k))) f (ext s L t) = f b (ext s L t).
Proof. intros H. unfold get_bytes, bindM, get_obj. now rewrite (ext_at _ _ _ _ _ H). Qed.
Lemma ext_get_old {B} s L t d b (f : buf Z -> M B) :
  wf s -> mem s d = Some (OBytes b) ->
  bindM (get_bytes (Ptr d)) f (ext s L t) = f b (ext s L t).
Proof. intros W H. unfold get_bytes, bindM, get_obj. now rewrite (ext_old _ _ _ _ _ W H). Qed.

(** How a run may end *)
Lemma ext_wf s L t : wf (ext s L t).
Proof.
  intros i Hi. cbn in *. unfold ext_mem. destruct (Z.ltb_spec i (nxt s)); [lia|]. apply nth_overflow. lia.
Qed.
Lemma ext_later s L t : (tick s <= t)%nat -> later s (ext s L t).
Proof. intros H. split; [apply ext_wf|]. cbn. repeat split; auto. lia. Qed.

Definition all_none (L : list (option obj)) : bool := forallb (fun o => match o with None => true | _ => false end) L.
Lemma all_none_nth L k : all_none L = true -> nth k L None = None.
Proof.
  revert k; induction L as [|o L IH]; intros [|k] H; cbn in *; auto; destruct o; try discriminate; auto.
Qed.
Lemma ext_null s L t P : wf s -> all_none L = true -> (tick s <= t)%nat ->
  (exists n, (tick s <= n < t)%nat /\ orc s n = false) ->
  returns_fresh s (ret Null (ext s L t)) P.
Proof.
  intros W H Ht F. exists Null, (ext s L t). split; [reflexivity|]. split; [now apply ext_later|]. split.
  - intros i. cbn. unfold ext_mem. destruct (Z.ltb_spec i (nxt s)); auto.
    rewrite all_none_nth by auto. symmetry. apply W. lia.
  - destruct F as (n & Hn & E). exists n. auto.
Qed.
Lemma ext_ret s L t k b (P : buf Z -> Prop) : wf s -> nth k L None = Some (OBytes b) ->
  all_none (set_nth k None L) = true -> (tick s <= t)%nat -> P b ->
  returns_fresh s (ret (Ptr (nxt s + Z.of_nat k)) (ext s L t)) P.
Proof.
  intros W H N Ht HP. eexists (Ptr _), (ext s L t). split; [reflexivity|]. split; [now apply ext_later|].
  split; [apply W; lia|]. split.
  - exists b. split; auto. now apply ext_at.
  - intros j Hj. cbn. unfold ext_mem. destruct (Z.ltb_spec j (nxt s)); auto.
    rewrite (W j) by lia. pose proof (all_none_nth _ (Z.to_nat (j - nxt s)) N) as E.
    rewrite nth_set_nth in E by (eapply nth_lt; eauto).
    destruct (Nat.eqb_spec (Z.to_nat (j - nxt s)) k); auto. lia.
Qed.

(** Symbolic execution in an extended state; pointers are of the form
    [nxt s + Z.of_nat k], [k] a numeral. *)
Ltac xcbn := cbn [app length set_nth is_null orb].
Ltac xblock L k f := let o := eval cbn [nth] in (nth k L None) in lazymatch o with Some ?o' => f o' end.
Ltac xfree :=
  lazymatch goal with
  | |- context [bindM (free Null) ?f ?s] => rewrite (ext_free_null s f)
  | |- context [bindM (free (Ptr (nxt ?s + Z.of_nat ?k))) ?f (ext ?s ?L ?t)] =>
      xblock L k ltac:(fun o => rewrite (ext_free s L t k o f eq_refl))
  end; cbv beta; xcbn.
Ltac xput :=
  lazymatch goal with
  | |- context [bindM (put_obj (Ptr (nxt ?s + Z.of_nat ?k)) ?o') ?f (ext ?s ?L ?t)] =>
      xblock L k ltac:(fun o => rewrite (ext_put s L t k o o' f eq_refl))
  end; cbv beta; xcbn.
Ltac xgetd :=
  lazymatch goal with
  | |- context [bindM (get_dbl (Ptr (nxt ?s + Z.of_nat ?k))) ?f (ext ?s ?L ?t)] =>
      xblock L k ltac:(fun o => lazymatch o with ODbl ?b => rewrite (ext_get_dbl s L t k b f eq_refl) end)
  end; cbv beta.
Ltac xgetb :=
  lazymatch goal with
  | |- context [bindM (get_bytes (Ptr (nxt ?s + Z.of_nat ?k))) ?f (ext ?s ?L ?t)] =>
      xblock L k ltac:(fun o => lazymatch o with OBytes ?b => rewrite (ext_get_bytes s L t k b f eq_refl) end)
  end; cbv beta.
Ltac xold := erewrite ext_get_old by eassumption; cbv beta.
Ltac xlift H := erewrite bindM_lift; [| exact H ]; cbv beta.
Ltac xalloc O :=
  match goal with |- context [bindM (alloc ?o) ?k (ext ?s ?L ?t)] =>
    destruct (orc s t) eqn:O;
    [ rewrite (ext_alloc_yes s L t o k O) | rewrite (ext_alloc_no s L t o k O) ]; cbv beta; xcbn
  end.
(** NULL because some allocation failed *)
Ltac xnull :=
  match goal with H : orc ?s ?n = false |- _ =>
    apply ext_null; [assumption | reflexivity | clear; lia | exists n; split; [clear; lia | exact H]]
  end.

