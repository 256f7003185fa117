From Verif Require Import Base BaseLemmas F Heap Spec HeapLemmas M_Haskell Spec_Haskell P_Haskell Spec_HsHistory.

Lemma without_Forall2 {A B} (R : A -> B -> Prop) l l' k : Forall2 R l l' -> Forall2 R (without k l) (without k l').
Proof. intros H. revert k. induction H; intros [|k]; cbn; auto. Qed.
Lemma without_map {A B} (f : A -> B) l k : map f (without k l) = without k (map f l).
Proof. revert k. induction l; intros [|k]; cbn; congruence. Qed.
Lemma without_in {A} (l : list A) k x : In x (without k l) -> In x l.
Proof. revert k. induction l; intros [|k] H; cbn in *; auto; try contradiction. destruct H as [->|H]; eauto. Qed.
Lemma without_nodup {A} (l : list A) k : NoDup l -> NoDup (without k l).
Proof. intros H. revert k. induction H; intros [|k]; cbn; auto; constructor; auto. intros Hi. apply without_in in Hi. auto. Qed.
Lemma without_not_in {A} (l : list A) k x : NoDup l -> nth_error l k = Some x -> ~ In x (without k l).
Proof.
  intros H. revert k. induction H as [|y l Hy Hl IH]; intros [|k]; cbn; try discriminate.
  - intros [= ->]. auto.
  - intros E [->|Hi]; [apply Hy; eapply nth_error_In; eauto|]. eapply IH; eauto.
Qed.
Lemma without_split {A} (l : list A) k x : nth_error l k = Some x -> forall y, In y l -> y = x \/ In y (without k l).
Proof.
  revert k. induction l; intros [|k]; cbn; try discriminate.
  - intros [= ->] y [->|]; auto.
  - intros E y [->|Hi]; auto. destruct (IHl k E y Hi); auto.
Qed.
Lemma without_short {A} (l : list A) k : nth_error l k = None -> without k l = l.
Proof. revert k. induction l; intros [|k]; cbn; try discriminate; auto. intros E. now rewrite IHl. Qed.
Lemma forall2_nth {A B} (R : A -> B -> Prop) l l' : Forall2 R l l' -> forall k,
  match nth_error l k, nth_error l' k with Some a, Some b => R a b | None, None => True | _, _ => False end.
Proof. induction 1; intros [|k]; cbn; auto. apply IHForall2. Qed.

Lemma forall2_impl_in {A B} (R Q : A -> B -> Prop) l l' : Forall2 R l l' -> (forall a b, In a l -> R a b -> Q a b) -> Forall2 Q l l'.
Proof. induction 1; intros H1; constructor; [apply H1; cbn; auto|]. apply IHForall2. intros; apply H1; cbn; auto. Qed.

Definition frame (s s' : st) (vs vs' : list vec) : Prop :=
  forall i, ~ In (Ptr i) (map v_ptr vs) -> ~ In (Ptr i) (map v_ptr vs') -> mem s' i = mem s i.

(** The invariant, and the blocks of dropped vectors *)
Definition inv (s : st) (vs : list vec) (bs : list (buf Z)) : Prop :=
  wf s /\ Forall2 (vec_of s) vs bs /\ NoDup (map v_ptr vs).

(** Each step: also, a block that is no longer in use is gone. *)
Definition gone (s' : st) (vs vs' : list vec) : Prop :=
  forall i, In (Ptr i) (map v_ptr vs) -> ~ In (Ptr i) (map v_ptr vs') -> mem s' i = None.

Lemma step_ok e s vs bs : known e -> inv s vs bs ->
  exists s' vs' bs', step e vs s = Ok (vs', s') /\ later s s' /\ inv s' vs' bs' /\ means (exists n, orc s n = false) e bs bs' /\
    frame s s' vs vs' /\ gone s' vs vs' /\
    (forall i, In (Ptr i) (map v_ptr vs') -> In (Ptr i) (map v_ptr vs) \/ mem s i = None).
Proof.
  intros Hk (Hw & HF & Hn). destruct e as [F f w h k|k]; cbn [step means known] in *.
  - pose proof (forall2_nth _ _ _ HF k) as Hv.
    destruct (nth_error vs k) as [v|] eqn:Ev, (nth_error bs k) as [b|] eqn:Eb; try contradiction.
    2:{ exists s, vs, bs. split; [reflexivity|]. split; [now apply later_refl|]. split; [split; auto|]. split; [reflexivity|].
        split; [intros i _ _; reflexivity|]. split; [intros i H1 H2; contradiction|auto]. }
    destruct Hv as [Hh [Hl Hi]]. rewrite Hl.
    destruct (fitting w h (v_len v)) eqn:Ef.
    2:{ exists s, vs, bs. split; [reflexivity|]. split; [now apply later_refl|]. split; [split; auto|]. split; [reflexivity|].
        split; [intros i _ _; reflexivity|]. split; [intros i H1 H2; contradiction|auto]. }
    unfold fitting in Ef. unfold bindM.
    assert (Hz : w = 0 \/ h = 0 \/ (0 < w /\ 0 < h)) by lia.
    assert (Hz' : (w = 0 \/ h = 0) \/ (0 < w /\ 0 < h)) by tauto. clear Hz. destruct Hz' as [Hz|[Hw0 Hh0]].
    + destruct (picture_throws F f w h s v Hk Hw) as (s' & -> & Hla & Hs); [unfold is_u32; lia|unfold is_u32; lia|exact Hz|].
      exists s', vs, bs. split; [reflexivity|]. split; [exact Hla|]. split.
      { split; [apply Hla|]. split; [|exact Hn]. eapply forall2_impl_in; [exact HF|]. intros a b0 _ [(i & E & E1) E2].
        split; [|exact E2]. exists i. now rewrite Hs. }
      split; [right; tauto|]. split; [intros i _ _; apply Hs|]. split; [intros i H1 H2; contradiction|auto].
    + destruct (picture_ok F f w h s v b Hk Hw) as (r & s' & -> & Hla & H);
        [unfold dims_ok, is_u32, SIZE_MAX; lia|lia|exact Hh|replace (w * h * 4) with (v_len v) by lia; exact Hi|].
      destruct r as [v'|].
      * destruct H as (Hv' & i & b' & Ep & Hf & Hm & Ho & He & Hc & _). rewrite <- Hv' in He.
        exists s', (vs ++ [v']), (bs ++ [b']). split; [reflexivity|]. split; [exact Hla|].
        assert (Hne : ~ In (Ptr i) (map v_ptr vs)).
        { intros Hin. apply in_map_iff in Hin. destruct Hin as (a & Ea & Ha).
          apply In_nth_error in Ha. destruct Ha as (j & Ej). pose proof (forall2_nth _ _ _ HF j) as Hj. rewrite Ej in Hj.
          destruct (nth_error bs j); [|contradiction]. destruct Hj as [(i' & E1 & E2) _]. rewrite Ea in E1. injection E1 as <-. congruence. }
        split.
        { split; [apply Hla|]. split.
          - apply Forall2_app; [|constructor; [|constructor]].
            + eapply forall2_impl_in; [exact HF|]. intros a b0 Ha [(i' & E & E1) E2]. split; [|exact E2]. exists i'. split; [exact E|].
              rewrite Ho; [exact E1|]. intros ->. congruence.
            + split; [|exact He]. exists i. auto.
          - rewrite map_app. cbn. rewrite Ep. apply (Permutation.Permutation_NoDup (l := Ptr i :: map v_ptr vs)); [apply Permutation.Permutation_cons_append|].
            constructor; auto. }
        split; [left; eauto|]. unfold frame, gone. rewrite map_app. cbn [map]. rewrite Ep. split; [|split].
        -- intros j _ Hj. apply Ho. intros ->. apply Hj. apply in_app_iff. cbn. auto.
        -- intros j Hj Hj'. exfalso. apply Hj'. apply in_app_iff. auto.
        -- intros j Hj. apply in_app_iff in Hj. destruct Hj as [Hj|[Hj|[]]]; auto. injection Hj as <-. auto.
      * destruct H as [Hs (n & Hn1 & Hn2)]. exists s', vs, bs. split; [reflexivity|]. split; [exact Hla|]. split.
        { split; [apply Hla|]. split; [|exact Hn]. eapply forall2_impl_in; [exact HF|]. intros a b0 _ [(i & E & E1) E2].
          split; [|exact E2]. exists i. now rewrite Hs. }
        split; [right; split; auto; right; right; eauto|]. split; [intros i _ _; apply Hs|]. split; [intros i H1 H2; contradiction|auto].
  - pose proof (forall2_nth _ _ _ HF k) as Hv.
    destruct (nth_error vs k) as [v|] eqn:Ev.
    2:{ destruct (nth_error bs k) eqn:Eb; [contradiction|]. exists s, vs, bs. split; [reflexivity|]. split; [now apply later_refl|].
        split; [split; auto|]. split; [now rewrite without_short|].
        split; [intros i _ _; reflexivity|]. split; [intros i H1 H2; contradiction|auto]. }
    destruct (nth_error bs k) as [b|] eqn:Eb; [|contradiction]. destruct Hv as [(i & Ep & Em) He].
    unfold bindM, finalize, free. rewrite Ep, Em.
    assert (Hpk : nth_error (map v_ptr vs) k = Some (Ptr i)) by (rewrite <- Ep; now apply map_nth_error).
    eexists _, (without k vs), (without k bs). split; [reflexivity|].
    assert (Hla : later s (mkst (upd (mem s) i None) (nxt s) (orc s) (tick s))).
    { split; [|cbn; repeat split; auto; lia]. intros j Hj. cbn in *. unfold upd. destruct (j =? i); auto. }
    split; [exact Hla|]. split; [split; [apply Hla|split]|].
    + eapply forall2_impl_in; [apply without_Forall2; exact HF|]. intros a b0 Ha [(i' & E & E1) E2]. split; [|exact E2].
      exists i'. split; [exact E|]. cbn [mem]. rewrite upd_other; [exact E1|]. intros ->.
      apply (without_not_in _ _ _ Hn Hpk). rewrite <- without_map. rewrite <- E. now apply in_map.
    + rewrite without_map. now apply without_nodup.
    + split; [reflexivity|]. unfold frame, gone. rewrite !without_map. cbn [mem]. split; [|split].
      * intros j Hj _. apply upd_other. intros ->. apply Hj. eapply nth_error_In; eauto.
      * intros j Hj Hj'. destruct (without_split _ _ _ Hpk _ Hj) as [E|E]; [|contradiction]. injection E as ->. apply upd_same.
      * intros j Hj. left. eapply without_in; eauto.
Qed.

Lemma run_ok es : forall s vs bs, Forall known es -> inv s vs bs ->
  exists s' vs' bs', run es vs s = Ok (vs', s') /\ later s s' /\ inv s' vs' bs' /\ amounts (exists n, orc s n = false) es bs bs' /\
    frame s s' vs vs' /\ gone s' vs vs'.
Proof.
  induction es as [|e es IH]; intros s vs bs Hk Hinv.
  - exists s, vs, bs. split; [reflexivity|]. split; [apply later_refl; apply Hinv|]. split; [exact Hinv|]. split; [constructor|].
    split; [intros i _ _; reflexivity|intros i H1 H2; contradiction].
  - inversion_clear Hk as [|? ? Hk1 Hk2].
    destruct (step_ok e s vs bs Hk1 Hinv) as (s1 & vs1 & bs1 & E1 & L1 & I1 & M1 & F1 & G1 & N1).
    destruct (IH s1 vs1 bs1 Hk2 I1) as (s2 & vs2 & bs2 & E2 & L2 & I2 & M2 & F2 & G2).
    exists s2, vs2, bs2. cbn [run]. unfold bindM. rewrite E1. split; [exact E2|]. split; [eapply later_trans; eauto|]. split; [exact I2|].
    split. { econstructor; [exact M1|]. destruct L1 as (_ & Eo & _). rewrite <- Eo. exact M2. }
    assert (D : forall i, In (Ptr i) (map v_ptr vs1) \/ ~ In (Ptr i) (map v_ptr vs1)).
    { intros i. destruct (in_dec (fun a b : ptr => ltac:(decide equality; apply Z.eq_dec) : {a = b} + {a <> b}) (Ptr i) (map v_ptr vs1)); auto. }
    split; intros i Hi Hi2; destruct (D i) as [H|H].
    + rewrite G2 by auto. destruct (N1 i H); [contradiction|auto].
    + rewrite F2 by auto. apply F1; auto.
    + apply G2; auto.
    + rewrite F2 by auto. apply G1; auto.
Qed.

(** The theorems *)
Lemma history_ok es s vs bs : Forall known es -> wf s -> Forall2 (vec_of s) vs bs -> NoDup (map v_ptr vs) ->
  exists s' vs' bs', run es vs s = Ok (vs', s') /\ later s s' /\ Forall2 (vec_of s') vs' bs' /\ NoDup (map v_ptr vs') /\
    amounts (exists n, orc s n = false) es bs bs' /\
    (forall i, ~ In (Ptr i) (map v_ptr vs) -> ~ In (Ptr i) (map v_ptr vs') -> mem s' i = mem s i) /\
    (forall i, In (Ptr i) (map v_ptr vs) -> ~ In (Ptr i) (map v_ptr vs') -> mem s' i = None).
Proof.
  intros Hk Hw HF Hn. destruct (run_ok es s vs bs Hk (conj Hw (conj HF Hn))) as (s' & vs' & bs' & E & L & (I1 & I2 & I3) & M & F & G).
  exists s', vs', bs'. auto 10.
Qed.

Lemma run_app es es' vs : forall s, run (es ++ es') vs s = (vs' <-- run es vs ;; run es' vs') s.
Proof.
  revert vs. induction es as [|e es IH]; intros vs s; cbn [app run]; [reflexivity|].
  unfold bindM. destruct (step e vs s) as [[vs1 s1]| | |]; auto. apply IH.
Qed.

Lemma drops vs : forall n s, (length vs <= n)%nat -> match run (repeat (Drop 0) n) vs s with Ok (vs', _) => vs' = [] | _ => True end.
Proof.
  induction vs as [|v vs IH]; intros n s Hn.
  - clear Hn. revert s. induction n; intros s; cbn [repeat run]; [reflexivity|]. cbn. apply IHn.
  - destruct n; [cbn in Hn; lia|]. cbn [repeat run step nth_error]. unfold bindM, ret. cbn [without].
    destruct (finalize v s) as [[[] s1]| | |]; auto. apply IH. cbn in Hn. lia.
Qed.

Lemma step_length e vs s : match step e vs s with Ok (vs', _) => (length vs' <= S (length vs))%nat | _ => True end.
Proof.
  assert (W : forall k, (length (without k vs) <= length vs)%nat).
  { induction vs; intros [|k]; cbn; auto. specialize (IHvs k). lia. }
  destruct e; cbn [step]; destruct (nth_error vs k); cbn; auto.
  - destruct (fitting w h (v_len v)); cbn; auto. unfold bindM. destruct (F w h v s) as [[[|] ?]| | |]; cbn; auto. rewrite app_length. cbn. lia.
  - unfold bindM. destruct (finalize v s) as [[[] s1]| | |]; cbn; auto.
Qed.
Lemma run_length es : forall vs s, match run es vs s with Ok (vs', _) => (length vs' <= length vs + length es)%nat | _ => True end.
Proof.
  induction es; intros vs s; cbn; [lia|]. unfold bindM. pose proof (step_length a vs s). destruct (step a vs s) as [[vs1 s1]| | |]; auto.
  specialize (IHes vs1 s1). destruct (run es vs1 s1) as [[vs2 s2]| | |]; auto. lia.
Qed.

Lemma released_ok es s vs bs n : Forall known es -> wf s -> Forall2 (vec_of s) vs bs -> NoDup (map v_ptr vs) ->
  (length vs + length es <= n)%nat ->
  exists s', run (es ++ repeat (Drop 0) n) vs s = Ok ([], s') /\
    forall i, (In (Ptr i) (map v_ptr vs) -> mem s' i = None) /\ (~ In (Ptr i) (map v_ptr vs) -> mem s' i = mem s i).
Proof.
  intros Hk Hw HF Hn Hl. destruct (history_ok (es ++ repeat (Drop 0) n) s vs bs) as (s' & vs' & bs' & E & L & I1 & I2 & M & F & G); auto.
  { apply Forall_app. split; auto. apply Forall_forall. intros e He. apply repeat_spec in He. now subst. }
  assert (Ev : vs' = []).
  { rewrite run_app in E. unfold bindM in E. pose proof (run_length es vs s). destruct (run es vs s) as [[vs1 s1]| | |] eqn:E1; try discriminate.
    pose proof (drops vs1 n s1 ltac:(lia)). rewrite E in H0. exact H0. }
  subst vs'. exists s'. split; [exact E|]. intros i. split; intros; [apply G|apply F]; auto.
Qed.
