From Verif Require Import Base BaseLemmas F Heap HeapLemmas Spec M_Web Spec_Blur Spec_Web P_Web P_Web2.
Local Open Scope Z_scope.

Definition turning (x : world) : Prop :=
  NoDup (map snd (processingQueue x)) /\ forall o, In o (map snd (processingQueue x)) -> spinner x o = true.

Lemma get_delete q id o : map_get q id = Some o -> exists l l', q = l ++ (id, o) :: l' /\ map_delete q id = l ++ l'.
Proof.
  induction q as [|[k v] q IH]; cbn; [discriminate|]. destruct (Z.eqb_spec k id).
  - intros [= <-]. subst k. exists [], q. auto.
  - intros H. destruct (IH H) as (l & l' & -> & ->). exists ((k, v) :: l), l'. auto.
Qed.

Section Web.
Variables (exp : f64 -> f64) (ids : nat -> Z).
Hypothesis He : exp_ok exp.
Hypothesis inj : forall i j, ids i = ids j -> i = j.
Variable m : st.

Lemma fresh_id x A B C : inv ids m x A B C -> ~ In (ids (clicks x)) (map fst (processingQueue x)).
Proof.
  intros I H. assert (H' : In (ids (clicks x)) (map fst (A ++ B ++ C))).
  { rewrite map_app. apply in_app_iff. right. rewrite (i_queue _ _ _ _ _ _ I), map_map in H. exact H. }
  rewrite (i_ids _ _ _ _ _ _ I) in H'. apply in_map_iff in H'. destruct H' as (k & E & Hk). apply inj in E. subst k. apply in_seq in Hk. lia.
Qed.

Lemma NoDup_snoc {T} (l : list T) a : NoDup l -> ~ In a l -> NoDup (l ++ [a]).
Proof.
  induction l as [|b l IH]; cbn; intros H Ha; [repeat constructor; auto|]. inversion_clear H as [|? ? H1 H2]. constructor.
  - rewrite in_app_iff. cbn. intuition.
  - apply IH; auto.
Qed.

Lemma step_turning e x x' A B C : inv ids m x A B C -> turning x ->
  (match e with Click op => ~ In op (map snd (processingQueue x)) | _ => True end) -> step exp ids e x = Ok x' -> turning x'.
Proof.
  intros I [T1 T2]. destruct e; cbn [step].
  - intros _ [= <-]. split; auto.
  - intros _ [= <-]. destruct (defaultLoading x); split; auto.
  - intros Hp [= <-]. unfold click. destruct (enabled x); [|split; auto]. destruct (originalImageData x); [|split; auto].
    split; cbn [processingQueue spinner]; rewrite (map_set_new _ _ _ (fresh_id _ _ _ _ I)), map_app; cbn [map snd].
    + now apply NoDup_snoc.
    + intros o Ho. unfold set_spinner. destruct (op_eqb o op) eqn:E; auto. apply in_app_iff in Ho. destruct Ho as [Ho|[Ho|[]]]; auto.
      subst. assert (op_eqb o o = true) by now apply op_eqb_true. congruence.
  - intros _. unfold worker_takes. destruct (to_worker x) as [|[|id op data] rest]; [intros [= <-]; split; auto..|].
    destruct (flatcvModule x); [intros [= <-]; split; auto..|].
    destruct (processImage exp op data (memory x)) as [[]| | |]; try discriminate. intros [= <-]. split; auto.
  - intros _ [= <-]. unfold module_loads. destruct (flatcvModule x); split; auto.
  - intros _ [= <-]. unfold page_takes. destruct (to_page x) as [|[s|id d] rest]; [split; auto..|].
    destruct (map_get (processingQueue x) id) as [op|] eqn:E; [|split; auto].
    destruct (get_delete _ _ _ E) as (l & l' & Eq & ->). rewrite Eq, map_app in T1, T2. cbn [map snd] in T1, T2.
    pose proof (NoDup_remove_1 _ _ _ T1) as N1. pose proof (NoDup_remove_2 _ _ _ T1) as N2.
    assert (K : forall o, In o (map snd (l ++ l')) -> spinner x o = true /\ set_spinner (spinner x) op false o = true).
    { intros o Ho. rewrite map_app in Ho. assert (Hs : spinner x o = true).
      { apply T2. apply in_app_iff in Ho. apply in_app_iff. cbn. tauto. }
      split; auto. unfold set_spinner. destruct (op_eqb o op) eqn:Eo; auto. apply op_eqb_true in Eo. subst. contradiction. }
    assert (N : NoDup (map snd (l ++ l'))) by now rewrite map_app.
    destruct d as [d|]; [destruct (displayProcessedImage d)|]; (split; [exact N|]); intros o1 Ho; now apply K.
Qed.

Lemma run_turning es : forall x A B C, Forall event_ok es -> inv ids m x A B C -> turning x -> polite exp ids es x ->
  forall x', run exp ids es x = Ok x' -> turning x'.
Proof.
  induction es as [|e es IH]; intros x A B C Ho I T P x'; cbn [run]; [now intros [= <-]|].
  inversion_clear Ho as [|? ? H1 H2]. destruct P as [P1 P2].
  destruct (step_inv exp ids He inj m e x A B C H1 I) as [[U _]|(x1 & A1 & B1 & C1 & D & E & I1 & _)]; [now rewrite U|].
  rewrite E in P2 |- *. cbn [bind]. intros R. exact (IH x1 A1 B1 C1 H2 I1 (step_turning _ _ _ _ _ _ I T P1 E) P2 x' R).
Qed.

Lemma spinner_exact es : wf m -> Forall event_ok es -> polite exp ids es (opened m) ->
  forall x op, run exp ids es (opened m) = Ok x -> (spinner x op = true <-> In op (map snd (processingQueue x))).
Proof.
  intros W Ho P x op R. split.
  - intros H. destruct (spinner_pending exp ids es m He inj W Ho x op R H) as (id & Hi). apply in_map_iff. exists (id, op). auto.
  - assert (T0 : turning (opened m)) by (split; [constructor|intros ? []]).
    apply (run_turning es _ _ _ _ Ho (opened_inv ids m W) T0 P x R).
Qed.
End Web.

(** ** The module never loads *)
Section NoModule.
Variables (exp : f64 -> f64) (ids : nat -> Z) (m : st).
Definition idle (t : to_page_msg) : Prop := match t with RInit b => b = false | RResult _ d => d = None end.
Definition useless (x : world) : Prop :=
  flatcvModule x <> Loaded /\ memory x = m /\ defaultLoading x = false /\ Forall idle (to_page x) /\ forall o, In o (screen x) -> exists op, o = Failed op.
Lemma step_useless e x : e <> ModuleLoads true -> useless x -> exists x', step exp ids e x = Ok x' /\ useless x'.
Proof.
  intros Ne (A & B & C & D & E). destruct e as [data|data|op| |success| ]; cbn [step].
  - eexists; split; [reflexivity|]. repeat split; auto.
  - rewrite C. eexists; split; [reflexivity|]. repeat split; auto.
  - eexists; split; [reflexivity|]. unfold click. destruct (enabled x); [|repeat split; auto]. destruct (originalImageData x); repeat split; auto.
  - unfold worker_takes. destruct (to_worker x) as [|[|id op data] rest]; [eexists; split; [reflexivity|]; repeat split; auto| |].
    + eexists; split; [reflexivity|]. repeat split; auto; discriminate.
    + destruct (flatcvModule x) eqn:M; [| |congruence]; (eexists; split; [reflexivity|]; repeat split; cbn; auto; try congruence; apply Forall_app; split; auto; constructor; [reflexivity|constructor]).
  - destruct success; [congruence|]. eexists; split; [reflexivity|]. unfold module_loads. destruct (flatcvModule x) eqn:M; [repeat split; auto; try congruence| |congruence].
    repeat split; cbn; auto; try discriminate. apply Forall_app; split; auto. constructor; [reflexivity|constructor].
  - eexists; split; [reflexivity|]. unfold page_takes. destruct (to_page x) as [|[b|id d] rest] eqn:T; [repeat split; auto; now rewrite T| |].
    + pose proof (Forall_inv D) as D1. pose proof (Forall_inv_tail D) as D2. cbn in D1. subst b. repeat split; cbn; auto.
    + pose proof (Forall_inv D) as D1. pose proof (Forall_inv_tail D) as D2. cbn in D1. subst d. destruct (map_get (processingQueue x) id) as [op|]; [|repeat split; cbn; auto].
      repeat split; cbn; auto. intros o H. apply in_app_or in H. destruct H as [H|[<-|[]]]; eauto.
Qed.
Lemma run_useless es : forall x, useless x -> ~ In (ModuleLoads true) es -> exists x', run exp ids es x = Ok x' /\ useless x'.
Proof.
  induction es as [|e es IH]; intros x U N; cbn [run]; [eauto|]. destruct (step_useless e x) as (x' & E & U'); [intros ->; apply N; left; reflexivity|exact U|].
  rewrite E. cbn. apply IH; [exact U'|]. intros H. apply N. right. exact H.
Qed.
Lemma no_module es : ~ In (ModuleLoads true) es ->
  exists x, run exp ids es (opened m) = Ok x /\ memory x = m /\ flatcvModule x <> Loaded /\ defaultLoading x = false /\
    forall o, In o (screen x) -> exists op, o = Failed op.
Proof.
  intros N. destruct (run_useless es (opened m)) as (x & E & A & B & C & _ & D); [repeat split; cbn; auto; try discriminate; tauto|exact N|]. exists x. auto.
Qed.
End NoModule.
