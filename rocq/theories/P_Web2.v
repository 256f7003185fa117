From Verif Require Import Base BaseLemmas F Heap HeapLemmas Spec M_Web Spec_Blur Spec_Web P_Web.
From Verif Require P_HsHistory.
Local Open Scope Z_scope.

(** A click with its id *)
Notation item := (Z * request)%type.
Definition op_of (r : request) : operation := fst (fst r).
Definition pic_of (r : request) : picture := snd (fst r).
Definition ready (r : request) : bool := snd r.
Definition job (i : item) : to_worker_msg := MProcess (fst i) (op_of (snd i)) (pic_of (snd i)).
Definition entry (i : item) : Z * operation := (fst i, op_of (snd i)).
Fixpoint results (l : list to_page_msg) : list (Z * option result) :=
  match l with [] => [] | RInit _ :: l => results l | RResult i d :: l => (i, d) :: results l end.
Lemma results_app l l' : results (l ++ l') = results l ++ results l'.
Proof. induction l as [|[]]; cbn; congruence. Qed.

Section Web.
Variables (exp : f64 -> f64) (ids : nat -> Z).
Hypothesis He : exp_ok exp.
Hypothesis inj : forall i j, ids i = ids j -> i = j.
Variable m : st.
Definition F : Prop := exists n, orc m n = false.
Definition good (r : request) (d : option result) : Prop :=
  match d with
  | None => ready r = false \/ F
  | Some d => exists px, displayProcessedImage d = Some (Drawn (width (pic_of r)) (height (pic_of r)) px) /\ shows (op_of r) (pic_of r) px
  end.

Record inv (x : world) (A B C : list item) : Prop := {
  i_ids : map fst (A ++ B ++ C) = map ids (seq 0 (clicks x));
  i_screen : Forall2 (fun i o => answered_or F (snd i) o) A (screen x);
  i_page : Forall2 (fun i r => fst r = fst i /\ good (snd i) (snd r)) B (results (to_page x));
  i_worker : exists pre, to_worker x = pre ++ map job C /\ (pre = [] \/ pre = [MInit] /\ flatcvModule x = NoModule);
  i_ready : Forall (fun i => ready (snd i) = true -> flatcvModule x = Loaded) C;
  i_ok : Forall (fun i => picture_ok (pic_of (snd i)) /\ op_of (snd i) <> Other) C;
  i_queue : processingQueue x = map entry (B ++ C);
  i_spin : forall o, spinner x o = true -> In o (map (fun i => op_of (snd i)) (B ++ C));
  i_pic : forall p, originalImageData x = Some p -> picture_ok p;
  i_mem : same_mem m (memory x);
  i_wf : wf (memory x);
  i_orc : orc (memory x) = orc m }.

Lemma map_set_new q id o : ~ In id (map fst q) -> map_set q id o = q ++ [(id, o)].
Proof.
  induction q as [|[k v] q IH]; cbn; auto. intros H. destruct (Z.eqb_spec k id); [tauto|]. rewrite IH; auto.
Qed.

Lemma op_eqb_true a b : op_eqb a b = true <-> a = b.
Proof. destruct a, b; cbn; split; congruence. Qed.

Lemma click_inv x A B C op : op <> Other -> inv x A B C ->
  exists C', inv (click ids op x) A B (C ++ C') /\
    map snd C' = match enabled x, originalImageData x with true, Some p => [(op, p, is_loaded (flatcvModule x))] | _, _ => [] end.
Proof.
  intros Ho I. unfold click. destruct (enabled x) eqn:Een; [|exists []; rewrite app_nil_r; auto].
  destruct (originalImageData x) as [p|] eqn:Ep; [|exists []; rewrite app_nil_r; auto].
  exists [(ids (clicks x), (op, p, is_loaded (flatcvModule x)))]. split; [|reflexivity].
  destruct I as [I1 I2 I3 I4 I5 I6 I7 I8 I9 I10 I11 I12].
  assert (Hnew : ~ In (ids (clicks x)) (map fst (processingQueue x))).
  { intros H. assert (H' : In (ids (clicks x)) (map fst (A ++ B ++ C))).
    { rewrite map_app. apply in_app_iff. right. rewrite I7, map_map in H. exact H. }
    rewrite I1 in H'. apply in_map_iff in H'. destruct H' as (k & E & Hk). apply inj in E. subst k. apply in_seq in Hk. lia. }
  constructor; cbn [to_worker to_page memory flatcvModule originalImageData processingQueue spinner clicks screen]; auto.
  - rewrite !app_assoc. rewrite map_app, <- app_assoc, I1. replace (S (clicks x)) with (clicks x + 1)%nat by lia. rewrite seq_app, map_app. reflexivity.
  - destruct I4 as (pre & -> & H). exists pre. rewrite map_app, app_assoc. auto.
  - apply Forall_app. split; auto. constructor; auto. cbn. destruct (flatcvModule x); cbn; congruence.
  - apply Forall_app. split; auto.
  - rewrite map_set_new by exact Hnew. rewrite I7, app_assoc, (map_app entry (B ++ C)). reflexivity.
  - intros o. unfold set_spinner. rewrite app_assoc, map_app, in_app_iff. cbn [map op_of fst snd In].
    destruct (op_eqb o op) eqn:E; [apply op_eqb_true in E; auto|]. intros H. left. apply I8. exact H.
  - intros q [= <-]. auto.
Qed.

Lemma worker_inv x A B C : inv x A B C ->
  (worker_takes exp x = UB NullDeref /\ F) \/
  exists x' B' C', worker_takes exp x = Ok x' /\ inv x' A B' C' /\ B' ++ C' = B ++ C /\ length (to_worker x') = pred (length (to_worker x)).
Proof.
  intros I. pose proof I as [I1 I2 I3 I4 I5 I6 I7 I8 I9 I10 I11 I12]. destruct I4 as (pre & Ew & Hpre). unfold worker_takes. rewrite Ew.
  destruct Hpre as [->|[-> Hm]]; cbn [app].
  - destruct C as [|[id [[op p] rd]] C]; cbn [map].
    + right. exists x, B, []. rewrite Ew. auto.
    + cbn [job fst snd op_of pic_of]. inversion_clear I5 as [|? ? H5 I5']. inversion_clear I6 as [|? ? [H6 H6'] I6']. cbn in H5, H6, H6'.
      destruct (orc m (tick (memory x))) eqn:Ho.
      2: { assert (HF : F) by (eexists; exact Ho).
           destruct (flatcvModule x) eqn:Em.
           3: { left. rewrite process_no_memory by congruence. auto. }
           all: right; exists (mkworld (memory x) (flatcvModule x) (map job C) (to_page x ++ [RResult id None]) (originalImageData x) (defaultLoading x) (enabled x)
             (processingQueue x) (spinner x) (clicks x) (screen x)), (B ++ [(id, (op, p, rd))]), C;
             rewrite Em; split; [reflexivity|]; rewrite <- !app_assoc; cbn [app]; (split; [|split; [reflexivity|]]; [|cbn; now rewrite !map_length]);
             (constructor; cbn [to_worker to_page memory flatcvModule originalImageData processingQueue spinner clicks screen]; auto;
               try (rewrite <- !app_assoc; cbn [app]; auto; fail)); [|exists []; auto];
             rewrite results_app; apply Forall2_app; auto; constructor; [|constructor]; cbn; auto. }
      right. assert (K : exists r mm, match flatcvModule x with Loaded => processImage exp op p (memory x) | _ => Ok (None, memory x) end = Ok (r, mm) /\
        later (memory x) mm /\ same_mem (memory x) mm /\ good (op, p, rd) r).
      { destruct (flatcvModule x) eqn:Em.
        1,2: exists None, (memory x); split; [reflexivity|]; split; [apply later_refl; auto|]; split; [intros i; reflexivity|];
          cbn; left; destruct rd; auto; specialize (H5 eq_refl); discriminate.
        destruct (process_ok exp op p (memory x) He H6' I11 H6) as (r & mm & E & L & S & K); [now rewrite I12|].
        exists r, mm. split; [exact E|]. split; [exact L|]. split; [exact S|]. destruct r as [d|]; [exact K|].
        destruct K as (n & _ & Hn). right. exists n. congruence. }
      destruct K as (r & mm & E & L & S & G).
      exists (mkworld mm (flatcvModule x) (map job C) (to_page x ++ [RResult id r]) (originalImageData x) (defaultLoading x) (enabled x)
        (processingQueue x) (spinner x) (clicks x) (screen x)), (B ++ [(id, (op, p, rd))]), C.
      split. { destruct (flatcvModule x); [injection E as <- <-; reflexivity..|]. rewrite E. reflexivity. }
      rewrite <- !app_assoc. cbn [app]. split; [|split; [reflexivity|]]; [|cbn; now rewrite !map_length].
      constructor; cbn [to_worker to_page memory flatcvModule originalImageData processingQueue spinner clicks screen]; auto;
        try (rewrite <- !app_assoc; cbn [app]; auto; fail).
      * rewrite results_app. apply Forall2_app; auto. constructor; [|constructor]. cbn. auto.
      * exists []. auto.
      * intros i. rewrite S. apply I10.
      * apply L.
      * destruct L as (_ & -> & _). exact I12.
  - right. eexists _, B, C. split; [reflexivity|]. split; [|split; [reflexivity|]]; [|reflexivity].
    constructor; cbn [to_worker to_page memory flatcvModule originalImageData processingQueue spinner clicks screen]; auto.
    + exists []. auto.
    + eapply Forall_impl; [|exact I5]. cbn. intros a H H'. specialize (H H'). congruence.
Qed.

Lemma loads_inv success x A B C : inv x A B C -> inv (module_loads success x) A B C /\ to_worker (module_loads success x) = to_worker x.
Proof.
  intros I. unfold module_loads. destruct (flatcvModule x) eqn:Em; auto. split; [|reflexivity].
  destruct I as [I1 I2 I3 I4 I5 I6 I7 I8 I9 I10 I11 I12].
  constructor; cbn [to_worker to_page memory flatcvModule originalImageData processingQueue spinner clicks screen]; auto.
  - rewrite results_app. cbn. now rewrite app_nil_r.
  - destruct I4 as (pre & E & [->|[-> H]]); [exists []; auto|congruence].
  - eapply Forall_impl; [|exact I5]. cbn. intros a H H'. specialize (H H'). congruence.
Qed.

Lemma page_inv x A B C : inv x A B C ->
  exists A' B', inv (page_takes x) A' B' C /\ A' ++ B' = A ++ B /\ to_worker (page_takes x) = to_worker x /\ length (to_page (page_takes x)) = pred (length (to_page x)).
Proof.
  intros I. pose proof I as [I1 I2 I3 I4 I5 I6 I7 I8 I9 I10 I11 I12]. unfold page_takes.
  destruct (to_page x) as [|[success|id d] rest] eqn:Et.
  - exists A, B. rewrite Et. auto.
  - exists A, B. split; [|auto]. cbn [results] in I3.
    constructor; cbn [to_worker to_page memory flatcvModule originalImageData processingQueue spinner clicks screen]; auto.
  - cbn [results] in I3. inversion I3 as [|[id' r] ? B' ? [Hid Hg] HB]; subst. cbn [fst snd] in *. subst id'.
    assert (Eg : map_get (processingQueue x) id = Some (op_of r)) by (rewrite I7; cbn; now rewrite Z.eqb_refl).
    assert (Ed : map_delete (processingQueue x) id = map entry (B' ++ C)) by (rewrite I7; cbn; now rewrite Z.eqb_refl).
    rewrite Eg, Ed.
    assert (K : forall o, answered_or F r o -> inv
      (mkworld (memory x) (flatcvModule x) (to_worker x) rest (originalImageData x) (defaultLoading x) (enabled x) (map entry (B' ++ C))
        (set_spinner (spinner x) (op_of r) false) (clicks x) (screen x ++ [o])) (A ++ [(id, r)]) B' C).
    { intros o Ho. constructor; cbn [to_worker to_page memory flatcvModule originalImageData processingQueue spinner clicks screen]; auto.
      - rewrite <- app_assoc. exact I1.
      - apply Forall2_app; auto.
      - intros o'. unfold set_spinner. destruct (op_eqb o' (op_of r)) eqn:E; [discriminate|]. intros H. apply I8 in H. cbn [app map In snd] in H.
        destruct H as [H|H]; [|exact H]. subst o'. assert (op_eqb (op_of r) (op_of r) = true) by now apply op_eqb_true. congruence. }
    exists (A ++ [(id, r)]), B'. rewrite <- app_assoc. destruct r as [[op p] rd]. cbn [op_of pic_of ready fst snd] in *. destruct d as [d|]; cbn [good] in Hg.
    + destruct Hg as (px & -> & Hs). split; [|auto]. apply K. left. left. exists px. auto.
    + split; [|auto]. apply K. destruct Hg; [left; right|right]; auto.
Qed.

Lemma load_inv x A B C p b : picture_ok p -> inv x A B C -> inv (loads p b x) A B C.
Proof.
  intros Hp [I1 I2 I3 I4 I5 I6 I7 I8 I9 I10 I11 I12].
  constructor; cbn [loads to_worker to_page memory flatcvModule originalImageData processingQueue spinner clicks screen]; auto. congruence.
Qed.

Lemma step_inv e x A B C : event_ok e -> inv x A B C -> (step exp ids e x = UB NullDeref /\ F) \/ exists x' A' B' C' D, step exp ids e x = Ok x' /\ inv x' A' B' C' /\
  A' ++ B' ++ C' = (A ++ B ++ C) ++ D /\ forall es, requests exp ids (e :: es) x = map snd D ++ requests exp ids es x'.
Proof.
  intros Ho I. destruct e; cbn [event_ok step] in *.
  - right. eexists _, A, B, C, []. split; [reflexivity|]. split; [apply load_inv; auto|]. rewrite app_nil_r. auto.
  - right. destruct (defaultLoading x) eqn:Ed.
    + eexists _, A, B, C, []. split; [reflexivity|]. split; [apply load_inv; auto|]. rewrite app_nil_r. split; [reflexivity|].
      intros es. cbn [requests step]. rewrite Ed. reflexivity.
    + eexists _, A, B, C, []. split; [reflexivity|]. split; [exact I|]. rewrite app_nil_r. split; [reflexivity|].
      intros es. cbn [requests step]. rewrite Ed. reflexivity.
  - right. destruct (click_inv x A B C op Ho I) as (D & I' & ED). exists (click ids op x), A, B, (C ++ D), D.
    split; [reflexivity|]. split; [exact I'|]. split; [now rewrite !app_assoc|]. intros es. cbn [requests step]. now rewrite ED.
  - destruct (worker_inv x A B C I) as [U|(x' & B' & C' & E & I' & EB & _)]; [auto|right]. exists x', A, B', C', []. split; [exact E|]. split; [exact I'|].
    rewrite app_nil_r, EB. split; [reflexivity|]. intros es. cbn [requests step]. now rewrite E.
  - right. destruct (loads_inv success x A B C I) as [I' _]. eexists _, A, B, C, []. split; [reflexivity|]. split; [exact I'|]. rewrite app_nil_r. auto.
  - right. destruct (page_inv x A B C I) as (A' & B' & I' & EA & _). eexists _, A', B', C, []. split; [reflexivity|]. split; [exact I'|].
    rewrite app_nil_r, (app_assoc A' B'), (app_assoc A B), EA. auto.
Qed.

Lemma run_inv es : forall x A B C, Forall event_ok es -> inv x A B C -> (run exp ids es x = UB NullDeref /\ F) \/ exists x' A' B' C', run exp ids es x = Ok x' /\ inv x' A' B' C' /\
  map snd (A' ++ B' ++ C') = map snd (A ++ B ++ C) ++ requests exp ids es x.
Proof.
  induction es as [|e es IH]; intros x A B C Ho I.
  - right. exists x, A, B, C. cbn. rewrite app_nil_r. auto.
  - inversion_clear Ho as [|? ? H1 H2]. destruct (step_inv e x A B C H1 I) as [[U HF]|(x1 & A1 & B1 & C1 & D & E & I1 & E1 & R)].
    { left. cbn [run]. rewrite U. auto. }
    destruct (IH x1 A1 B1 C1 H2 I1) as [[U HF]|(x' & A' & B' & C' & E' & I' & R')]; [left; cbn [run]; rewrite E; auto|right]. exists x', A', B', C'.
    cbn [run]. rewrite E. cbn [bind]. split; [exact E'|]. split; [exact I'|]. rewrite R', E1, R, map_app, <- app_assoc. reflexivity.
Qed.

Lemma opened_inv : wf m -> inv (opened m) [] [] [].
Proof.
  intros W. constructor; cbn; auto; try discriminate; try (intros i; reflexivity). exists [MInit]. auto.
Qed.

Lemma finish x A B C : inv x A B C -> exists done waiting,
  map snd (A ++ B ++ C) = done ++ waiting /\ Forall2 (answered_or F) done (screen x) /\ length waiting = length (processingQueue x) /\
  (quiet x -> waiting = [] /\ forall op, spinner x op = false).
Proof.
  intros [I1 I2 I3 I4 I5 I6 I7 I8 I9 I10 I11 I12]. exists (map snd A), (map snd (B ++ C)). split; [apply map_app|]. split.
  { clear -I2. induction I2; cbn; auto. }
  split; [rewrite I7, !map_length; reflexivity|]. intros [Q1 Q2].
  rewrite Q2 in I3. inversion I3; subst. destruct I4 as (pre & E & _). rewrite Q1 in E. symmetry in E. apply app_eq_nil in E. destruct E as [_ E].
  apply map_eq_nil in E. subst C. split; [reflexivity|]. intros op. destruct (spinner x op) eqn:Es; auto. apply I8 in Es. destruct Es.
Qed.

Lemma schedule_mem es : wf m -> Forall event_ok es -> (run exp ids es (opened m) = UB NullDeref /\ exists n, orc m n = false) \/
  exists x, run exp ids es (opened m) = Ok x /\ same_mem m (memory x) /\
  exists done waiting, requests exp ids es (opened m) = done ++ waiting /\ Forall2 (answered_or (exists n, orc m n = false)) done (screen x) /\
    length waiting = length (processingQueue x) /\ (quiet x -> waiting = [] /\ forall op, spinner x op = false).
Proof.
  intros W Ho. destruct (run_inv es _ _ _ _ Ho (opened_inv W)) as [U|(x & A & B & C & E & I & R)]; [auto|right]. exists x. split; [exact E|]. split; [apply I|].
  cbn in R. rewrite <- R. now apply finish.
Qed.

Hypothesis Horc : forall n, orc m n = true.
Lemma notF : ~ F.
Proof. intros [n H]. rewrite Horc in H. discriminate. Qed.

Lemma schedule_ok es : wf m -> Forall event_ok es -> exists x, run exp ids es (opened m) = Ok x /\ same_mem m (memory x) /\
  exists done waiting, requests exp ids es (opened m) = done ++ waiting /\ Forall2 answered done (screen x) /\
    length waiting = length (processingQueue x) /\ (quiet x -> waiting = [] /\ forall op, spinner x op = false).
Proof.
  intros W Ho. destruct (schedule_mem es W Ho) as [[_ U]|(x & E & S & done & waiting & R & H & K)]; [destruct (notF U)|].
  exists x. split; [exact E|]. split; [exact S|]. exists done, waiting. split; [exact R|]. split; [|exact K].
  clear -H Horc. induction H as [|r o l l' [H|[U _]]]; auto. destruct (notF U).
Qed.

Lemma worker_drains n : forall x A B C, inv x A B C -> (length (to_worker x) <= n)%nat ->
  exists x' B' C', run exp ids (repeat WorkerTakes n) x = Ok x' /\ inv x' A B' C' /\ to_worker x' = [].
Proof.
  induction n; intros x A B C I Hn.
  - exists x, B, C. split; [reflexivity|]. split; [exact I|]. destruct (to_worker x); [auto|cbn in Hn; lia].
  - destruct (worker_inv x A B C I) as [[_ U]|(x1 & B1 & C1 & E & I1 & _ & L)]; [destruct (notF U)|]. cbn [repeat run step]. rewrite E. cbn [bind].
    apply (IHn x1 A B1 C1 I1). lia.
Qed.
Lemma page_drains n : forall x A B C, inv x A B C -> to_worker x = [] -> (length (to_page x) <= n)%nat ->
  exists x' A' B', run exp ids (repeat PageTakes n) x = Ok x' /\ inv x' A' B' C /\ quiet x'.
Proof.
  induction n; intros x A B C I Hw Hn.
  - exists x, A, B. split; [reflexivity|]. split; [exact I|]. split; [exact Hw|]. destruct (to_page x); [auto|cbn in Hn; lia].
  - destruct (page_inv x A B C I) as (A1 & B1 & I1 & _ & Ew & L). cbn [repeat run step bind].
    apply (IHn (page_takes x) A1 B1 C I1); [congruence|lia].
Qed.
Lemma run_app es es' x : run exp ids (es ++ es') x = (y <- run exp ids es x ;; run exp ids es' y).
Proof. revert x. induction es as [|e es IH]; intros x; cbn; auto. destruct (step exp ids e x); cbn; auto. Qed.

Lemma settles es : wf m -> Forall event_ok es -> exists n k x, run exp ids (es ++ repeat WorkerTakes n ++ repeat PageTakes k) (opened m) = Ok x /\ quiet x.
Proof.
  intros W Ho. destruct (run_inv es _ _ _ _ Ho (opened_inv W)) as [[_ U]|(x & A & B & C & E & I & R)]; [destruct (notF U)|].
  destruct (worker_drains (length (to_worker x)) x A B C I ltac:(lia)) as (x1 & B1 & C1 & E1 & I1 & W1).
  destruct (page_drains (length (to_page x1)) x1 A B1 C1 I1 W1 ltac:(lia)) as (x2 & A2 & B2 & E2 & I2 & Q).
  exists (length (to_worker x)), (length (to_page x1)), x2. split; [|exact Q].
  rewrite run_app, E. cbn [bind]. rewrite run_app, E1. cbn [bind]. exact E2.
Qed.
End Web.

(** ** The spinners *)
Lemma spinner_pending exp ids es m : exp_ok exp -> (forall i j, ids i = ids j -> i = j) -> wf m -> Forall event_ok es ->
  forall x op, run exp ids es (opened m) = Ok x -> spinner x op = true -> exists id, In (id, op) (processingQueue x).
Proof.
  intros He inj W Hes x op E Hs. destruct (run_inv exp ids He inj m es _ _ _ _ Hes (opened_inv ids m W)) as [[U _]|(x' & A & B & C & E' & I & _)]; [congruence|].
  rewrite E in E'. injection E' as <-. pose proof (i_spin _ _ _ _ _ _ I op Hs) as H. apply in_map_iff in H. destruct H as ([id r] & <- & Hi).
  exists id. rewrite (i_queue _ _ _ _ _ _ I). apply in_map_iff. exists (id, r). auto.
Qed.

(** ** The default picture comes once *)
Fixpoint inits (l : list to_worker_msg) : nat := match l with [] => 0 | MInit :: l => S (inits l) | _ :: l => inits l end.
Fixpoint rinits (l : list to_page_msg) : nat := match l with [] => 0 | RInit _ :: l => S (rinits l) | _ :: l => rinits l end.
Definition coming (x : world) : nat :=
  inits (to_worker x) + (match flatcvModule x with Loading => 1 | _ => 0 end) + rinits (to_page x) + (if defaultLoading x then 1 else 0).
Lemma rinits_app l l' : rinits (l ++ l') = (rinits l + rinits l')%nat.
Proof. induction l as [|[]]; cbn; lia. Qed.
Lemma inits_app l l' : inits (l ++ l') = (inits l + inits l')%nat.
Proof. induction l as [|[]]; cbn; lia. Qed.

Lemma step_coming exp ids e x x' : step exp ids e x = Ok x' -> (coming x' <= coming x)%nat /\
  (coming x = 0%nat -> forall p, originalImageData x = Some p -> originalImageData x' = Some (last_loaded [e] p)) /\
  (match e with DefaultLoads _ => defaultLoading x = true -> (coming x' < coming x)%nat | _ => True end).
Proof.
  unfold coming. destruct e; cbn [step last_loaded].
  - intros [= <-]. cbn. auto.
  - destruct (defaultLoading x) eqn:E; intros [= <-]; cbn; rewrite ?E; split; try lia; (split; [intros; try lia; auto|]); try (intros; lia); discriminate.
  - intros [= <-]. unfold click. destruct (enabled x); [|split; [|split]; auto; lia]. destruct (originalImageData x) eqn:E; [|split; [|split]; auto; try lia; discriminate].
    cbn. rewrite inits_app. cbn. split; [lia|]. split; [|exact I]. intros _ p0 H. exact H.
  - unfold worker_takes. destruct (to_worker x) as [|[|id op data] rest] eqn:E.
    + intros [= <-]. rewrite E. auto.
    + intros [= <-]. cbn. destruct (flatcvModule x); split; auto; lia.
    + destruct (flatcvModule x) eqn:Em; [intros [= <-]; cbn; rewrite ?Em, rinits_app; cbn; split; auto; lia..|].
      destruct (processImage exp op data (memory x)) as [[r mm]| | |]; try discriminate. intros [= <-]. cbn. rewrite rinits_app. cbn. split; auto; lia.
  - intros [= <-]. unfold module_loads. destruct (flatcvModule x) eqn:E; cbn; rewrite ?E; [split; auto| |split; auto].
    rewrite rinits_app. cbn. destruct success; split; auto; lia.
  - intros [= <-]. unfold page_takes. destruct (to_page x) as [|[success|id d] rest] eqn:E; cbn.
    + rewrite E. auto.
    + destruct success, (defaultLoading x); cbn; split; auto; lia.
    + destruct (map_get (processingQueue x) id); [destruct d as [d|]; [destruct (displayProcessedImage d)|]|]; cbn; auto.
Qed.

Lemma last_loaded_cons e es p : last_loaded (e :: es) p = last_loaded es (last_loaded [e] p).
Proof. destruct e; reflexivity. Qed.

Lemma run_coming exp ids es : forall x x', run exp ids es x = Ok x' -> (coming x' <= coming x)%nat /\
  (coming x = 0%nat -> forall p, originalImageData x = Some p -> originalImageData x' = Some (last_loaded es p)).
Proof.
  induction es as [|e es IH]; intros x x'; cbn [run]; [intros [= <-]; auto|].
  destruct (step exp ids e x) as [x1| | |] eqn:E; try discriminate. cbn [bind]. intros H.
  destruct (step_coming _ _ _ _ _ E) as (S1 & S2 & _). destruct (IH _ _ H) as (R1 & R2). split; [lia|].
  intros H0 p Hp. rewrite last_loaded_cons. apply R2; [lia|]. auto.
Qed.

Lemma users_picture exp ids m es d es' x x' : run exp ids es (opened m) = Ok x -> defaultLoading x = true ->
  run exp ids (DefaultLoads d :: es') x = Ok x' -> originalImageData x' = Some (last_loaded es' d).
Proof.
  intros H Hd H'. pose proof (run_coming _ _ _ _ _ H) as [H1 _]. change (coming (opened m)) with 1%nat in H1.
  cbn [run step] in H'. rewrite Hd in H'. cbn [bind] in H'. refine (proj2 (run_coming _ _ _ _ _ H') _ _ eq_refl).
  unfold coming in *. cbn. rewrite Hd in H1. lia.
Qed.

(** ** What goes wrong *)
Lemma spinner_hides exp ids m p : picture_ok p -> ids 0%nat <> ids 1%nat -> exists es x, Forall event_ok es /\
  run exp ids es (opened m) = Ok x /\ In (ids 1%nat, Grayscale) (processingQueue x) /\ spinner x Grayscale = false.
Proof.
  intros Hp Hi. exists [LoadImage p; Click Grayscale; Click Grayscale; WorkerTakes; WorkerTakes; PageTakes].
  assert (E : (ids 0%nat =? ids 1%nat) = false) by now apply Z.eqb_neq.
  eexists. split; [repeat (constructor; cbn; auto; try discriminate)|]. split; [|split].
  - cbn -[Z.eqb]. rewrite E. cbn -[Z.eqb]. rewrite Z.eqb_refl. reflexivity.
  - left. reflexivity.
  - reflexivity.
Qed.

(** The events of a hasty user: the picture and the click come before the module. *)
Lemma too_early exp ids m p : picture_ok p -> exists es x, Forall event_ok es /\ run exp ids es (opened m) = Ok x /\ quiet x /\
  flatcvModule x = Loaded /\ requests exp ids es (opened m) = [(Grayscale, p, false)] /\ screen x = [Failed Grayscale].
Proof.
  intros Hp. exists [LoadImage p; Click Grayscale; WorkerTakes; WorkerTakes; ModuleLoads true; PageTakes; PageTakes].
  eexists. split; [repeat (constructor; cbn; auto; try discriminate)|].
  split; [cbn -[Z.eqb]; rewrite Z.eqb_refl; reflexivity|]. repeat split.
Qed.

(** The default picture comes after the user's own. *)
Lemma picture_replaced exp ids m p q : picture_ok p -> picture_ok q -> exists es x, Forall event_ok es /\
  run exp ids (LoadImage p :: es) (opened m) = Ok x /\ last_loaded es p = p /\ originalImageData x = Some q /\
  to_worker x = [MProcess (ids 0%nat) Grayscale q].
Proof.
  intros Hp Hq. exists [WorkerTakes; ModuleLoads true; PageTakes; DefaultLoads q; Click Grayscale].
  eexists. split; [repeat (constructor; cbn; auto; try discriminate)|]. repeat split.
Qed.

(** Two clicks with the same id: the second picture never appears. *)
Lemma same_id exp ids m p : picture_ok p -> ids 0%nat = ids 1%nat -> exists es x, Forall event_ok es /\
  run exp ids es (opened m) = Ok x /\ quiet x /\ length (requests exp ids es (opened m)) = 2%nat /\ length (screen x) = 1%nat.
Proof.
  intros Hp Hi. exists [LoadImage p; Click Grayscale; Click Blur; WorkerTakes; WorkerTakes; WorkerTakes; PageTakes; PageTakes].
  eexists. split; [repeat (constructor; cbn; auto; try discriminate)|].
  split; [cbn -[Z.eqb]; rewrite !Hi, !Z.eqb_refl; cbn -[Z.eqb]; rewrite ?Hi, !Z.eqb_refl; cbn -[Z.eqb]; reflexivity|]. repeat split.
Qed.
