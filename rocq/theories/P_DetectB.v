(** * P_DetectB: choosing four corners *)
From Coq Require Import Reals Lra Sorting.Permutation.
From Flocq Require Import Core.
From Verif Require Import Base BaseLemmas F Heap Spec FLemmas HeapLemmas Spec_Corners Spec_Detect P_Corners P_Over M_Detect.
Local Open Scope Z_scope.

(** ** Bubble sort *)
Section Bub.
Context {A : Type} (d : A) (I0 : list A) (sw : A -> A -> bool) (Rl : A -> A -> Prop) (G : Prop).
Let n := Z.of_nat (length I0).
Hypothesis Hn : 1 <= n < 4294967296.
Hypothesis tr : forall x y z, Rl x y -> Rl y z -> Rl x z.
Hypothesis ok : G -> forall e f, In e I0 -> In f I0 -> if sw e f then Rl f e else Rl e f.

Definition bstep (j : Z) (ib : buf A) : res (buf A) :=
  e <- load ib j ;; f <- load ib (u32 (j + 1)) ;;
  if sw e f then ib <- store ib j f ;; store ib (u32 (j + 1)) e else Ok ib.

Definition bubinv (i j : Z) (ib : buf A) : Prop := exists I, lrep d ib I /\ Permutation I0 I /\
  (G ->
   (forall a b, (a < b < length I)%nat -> n - i <= Z.of_nat b -> Rl (nth a I d) (nth b I d)) /\
   (forall a, Z.of_nat a < j -> Rl (nth a I d) (nth (Z.to_nat j) I d))).

Lemma bub_step i j ib : 0 <= i < n - 1 -> 0 <= j < n - 1 - i -> bubinv i j ib -> exists ib',
  bstep j ib = Ok ib' /\ bubinv i (j + 1) ib'.
Proof.
  intros Hi Hj (I & R & P & S). assert (nE : n = Z.of_nat (length I0)) by reflexivity.
  pose proof (Permutation_length P) as LI. unfold bstep. rewrite u32_small by lia.
  rewrite (lrep_load d ib I j R) by lia. cbn [bind]. rewrite (lrep_load d ib I (j + 1) R) by lia. cbn [bind].
  replace (Z.to_nat (j + 1)) with (Datatypes.S (Z.to_nat j)) by lia.
  set (e := nth (Z.to_nat j) I d). set (f := nth (Datatypes.S (Z.to_nat j)) I d).
  assert (SW : G -> if sw e f then Rl f e else Rl e f).
  { intros SE. apply ok; auto; (apply Permutation_in with I; [symmetry; auto|]; apply nth_In; lia). }
  destruct (sw e f).
  - pose proof (proj1 R) as BL.
    rewrite store_ok by lia. cbn [bind]. rewrite store_ok by (cbn [blen bset]; lia). eexists. split; [reflexivity|].
    exists (swapl d (Z.to_nat j) I). split; [apply lrep_swap; auto; lia|]. split.
    { eapply Permutation_trans; [exact P|]. apply swapl_perm. lia. }
    intros SE. destruct (S SE) as [S1 S2]. specialize (SW SE). rewrite swapl_length by lia. split.
    + intros a b Hab Hb. rewrite !swapl_nth by lia.
      destruct (Nat.eqb_spec b (Z.to_nat j)); [lia|]. destruct (Nat.eqb_spec b (Datatypes.S (Z.to_nat j))); [lia|].
      destruct (Nat.eqb_spec a (Z.to_nat j)); [apply S1; lia|]. destruct (Nat.eqb_spec a (Datatypes.S (Z.to_nat j))); apply S1; lia.
    + intros a Hab. replace (Z.to_nat (j + 1)) with (Datatypes.S (Z.to_nat j)) by lia. rewrite !swapl_nth by lia.
      rewrite Nat.eqb_refl. destruct (Nat.eqb_spec (Datatypes.S (Z.to_nat j)) (Z.to_nat j)); [lia|].
      destruct (Nat.eqb_spec a (Z.to_nat j)); [exact SW|]. destruct (Nat.eqb_spec a (Datatypes.S (Z.to_nat j))); [lia|]. apply S2. lia.
  - eexists. split; [reflexivity|]. exists I. split; auto. split; auto. intros SE. destruct (S SE) as [S1 S2]. specialize (SW SE).
    split; auto. intros a Hab. replace (Z.to_nat (j + 1)) with (Datatypes.S (Z.to_nat j)) by lia. fold f.
    destruct (Z.eq_dec (Z.of_nat a) j) as [E|E].
    + replace a with (Z.to_nat j) by lia. exact SW.
    + apply tr with e; auto. apply S2. lia.
Qed.

Lemma bub_ok ib : lrep d ib I0 -> exists ib' I,
  for_ 0 (n - 1) (fun i ib => for_ 0 (u32 (n - 1 - i)) bstep ib) ib = Ok ib' /\ lrep d ib' I /\ Permutation I0 I /\
  (G -> forall a b, (a < b < length I)%nat -> Rl (nth a I d) (nth b I d)).
Proof.
  intros R. assert (nE : n = Z.of_nat (length I0)) by reflexivity.
  destruct (for_inv (fun i ib => bubinv i 0 ib) 0 (n - 1) (fun i ib => for_ 0 (u32 (n - 1 - i)) bstep ib) ib)
    as (ib' & -> & I & R' & P & S).
  - lia.
  - exists I0. split; auto. split; auto. intros _. split; intros; lia.
  - intros i ib1 Hi HI. rewrite u32_small by lia.
    destruct (for_inv (fun j ib => bubinv i j ib) 0 (n - 1 - i) bstep ib1) as (ib2 & E2 & I & R2 & P2 & S2).
    + lia.
    + exact HI.
    + intros j ib2 Hj H2. apply (bub_step i j ib2); auto; lia.
    + exists ib2. split; auto. exists I. split; auto. split; auto. intros SE. destruct (S2 SE) as [A1 B].
      split; [|intros; lia]. intros a b Hab Hb. destruct (Z.eq_dec (Z.of_nat b) (n - (i + 1))) as [E|E].
      * replace b with (Z.to_nat (n - 1 - i)) by lia. apply B. lia.
      * apply A1; auto. lia.
  - exists ib', I. split; auto. split; auto. split; auto. intros SE a b Hab. destruct (S SE) as [A1 _]. apply A1; auto. lia.
Qed.
End Bub.

Definition de : Z * f64 := (0, d0).

Lemma sort_angles_ok I0 ib : 1 <= Z.of_nat (length I0) < 4294967296 -> lrep de ib I0 ->
  exists ib' I, sort_angles (Z.of_nat (length I0)) ib = Ok ib' /\ lrep de ib' I /\ Permutation I0 I /\
  ((forall e, In e I0 -> dfinite (snd e) = true) ->
   forall a b, (a < b < length I)%nat -> (B2R (snd (nth b I de)) <= B2R (snd (nth a I de)))%R).
Proof.
  intros Hn R. unfold sort_angles. rewrite (u32_small (Z.of_nat (length I0) - 1)) by lia.
  apply (bub_ok de I0 (fun e f => dlt (snd e) (snd f)) (fun e f => (B2R (snd f) <= B2R (snd e))%R)
    (forall e, In e I0 -> dfinite (snd e) = true)); auto.
  - intros x y z. lra.
  - intros F e f He Hf. pose proof (isd_finite _ (F e He)) as De. pose proof (isd_finite _ (F f Hf)) as Df.
    rewrite (dlt_R _ _ _ _ De Df). destruct (Rlt_bool_spec (B2R (snd e)) (B2R (snd f))); lra.
Qed.

Lemma sort_top_4_ok I0 ib : length I0 = 4%nat -> lrep 0 ib I0 ->
  exists ib' I, sort_top_4 ib = Ok ib' /\ lrep 0 ib' I /\ Permutation I0 I /\
  forall a b, (a < b < 4)%nat -> nth a I 0 <= nth b I 0.
Proof.
  intros Hn R. unfold sort_top_4.
  destruct (bub_ok 0 I0 (fun e f => f <? e) (fun e f => e <= f) True) with (ib := ib) as (ib' & I & E & R' & P & S); auto.
  - lia.
  - intros; lia.
  - intros _ e f _ _. destruct (Z.ltb_spec f e); lia.
  - exists ib', I. rewrite Hn in E. split; [exact E|]. split; [auto|]. split; [auto|]. intros a b Hab.
    apply S; auto. rewrite <- (Permutation_length P), Hn. lia.
Qed.

Lemma nodup_left {A} (l1 l2 : list A) : NoDup (l1 ++ l2) -> NoDup l1.
Proof.
  induction l1 as [|a l1 IH]; cbn; intros H; [constructor|]. inversion H as [|x y N D]; subst.
  constructor; auto. intros X. apply N. apply in_or_app. auto.
Qed.

(** ** Angles *)
Section Angles.
Variables (asin : f64 -> f64) (l : list (f64 * f64)) (pts : buf (f64 * f64)).
Let n := Z.of_nat (length l).
Hypothesis Hn : 4 < n < 2147483648.
Hypothesis Hp : lrep (d0, d0) pts l.

Lemma angle_at_ok i : 0 <= i < n -> exists a, angle_at asin n i pts = Ok a /\ dabs a = bend asin l (Z.to_nat i).
Proof.
  intros Hi. assert (nE : n = Z.of_nat (length l)) by reflexivity.
  assert (E1 : u32 (u32 (i - 1) + n) mod n = Z.of_nat ((Z.to_nat i + length l - 1) mod length l)).
  { rewrite Nat2Z.inj_mod. rewrite <- nE. replace (Z.of_nat (Z.to_nat i + length l - 1)) with (i + n - 1) by lia.
    destruct (Z.eq_dec i 0) as [->|].
    - unfold u32, U32. replace ((0 - 1) mod 4294967296 + n) with (n - 1 + 1 * 4294967296) by (change ((0 - 1) mod 4294967296) with 4294967295; lia).
      rewrite Z.mod_add by lia. rewrite (Z.mod_small (n - 1) 4294967296) by lia. f_equal.
    - rewrite (u32_small (i - 1)) by lia. rewrite u32_small by lia. f_equal. lia. }
  assert (E2 : i = Z.of_nat (Z.to_nat i mod length l)).
  { rewrite Nat.mod_small by lia. lia. }
  assert (E3 : u32 (i + 1) mod n = Z.of_nat ((Z.to_nat i + 1) mod length l)).
  { rewrite Nat2Z.inj_mod. rewrite <- nE. rewrite u32_small by lia. f_equal. lia. }
  assert (LD : forall k, load pts (Z.of_nat (k mod length l)) = Ok (cyc l k)).
  { intros k. rewrite (lrep_load (d0, d0) pts l _ Hp).
    - unfold cyc. rewrite Nat2Z.id. reflexivity.
    - assert (k mod length l < length l)%nat by (apply Nat.mod_upper_bound; lia). lia. }
  assert (LDi : load pts i = Ok (cyc l (Z.to_nat i))) by (rewrite <- LD; f_equal; exact E2).
  unfold angle_at. rewrite E1, E3, LDi, !LD. cbn [bind]. unfold bend.
  cbv zeta. cbn [fst snd].
  match goal with |- context [if ?c then Ok d0 else _] => destruct c end; eexists; (split; [reflexivity|]); reflexivity.
Qed.

Definition entries : list (Z * f64) := map (fun k => (Z.of_nat k, bend asin l k)) (seq 0 (length l)).
Lemma entries_len : length entries = length l.
Proof. unfold entries. rewrite map_length, seq_length. reflexivity. Qed.
Lemma entries_nth k : (k < length l)%nat -> nth k entries de = (Z.of_nat k, bend asin l k).
Proof.
  intros H. unfold entries. rewrite nth_indep with (d' := (Z.of_nat 0, bend asin l 0)) by (rewrite map_length, seq_length; auto).
  rewrite (map_nth (fun k => (Z.of_nat k, bend asin l k))), seq_nth by auto. reflexivity.
Qed.

Lemma fill_angles_ok ab : blen ab = n -> exists r, fill_angles asin n pts (ab, bnew n) = Ok r /\ lrep de (snd r) entries.
Proof.
  intros La. assert (nE : n = Z.of_nat (length l)) by reflexivity. unfold fill_angles.
  match goal with |- context [for_ 0 n ?f ?i] =>
    destruct (for_inv (fun k (st : buf f64 * buf (Z * f64)) => blen (fst st) = n /\ blen (snd st) = n /\
      forall j, 0 <= j < k -> bget (snd st) j = Some (nth (Z.to_nat j) entries de)) 0 n f i) as ([ab' ib] & E & H1 & H2 & H3) end.
  - lia.
  - split; [exact La|]. split; [reflexivity|]. intros; lia.
  - intros i [ab1 ib1] Hi (H1 & H2 & H3). cbn [fst snd] in *. destruct (angle_at_ok i Hi) as (a & -> & Ea). cbn [bind].
    rewrite store_ok by lia. cbn [bind]. rewrite store_ok by lia. cbn [bind]. eexists. split; [reflexivity|]. cbn [fst snd].
    split; [exact H1|]. split; [exact H2|]. intros j Hj. rewrite bget_bset. destruct (Z.eqb_spec j i) as [->|N].
    + rewrite entries_nth by lia. rewrite Ea. f_equal. f_equal. lia.
    + apply H3. lia.
  - rewrite E. eexists. split; [reflexivity|]. cbn [fst snd] in *. split; [rewrite entries_len; auto|].
    intros k Hk. rewrite entries_len in Hk. rewrite H3 by lia. now rewrite Nat2Z.id.
Qed.

Lemma top_4_ok ib I : lrep de ib I -> (4 <= length I)%nat -> exists tb, top_4 ib = Ok tb /\ lrep 0 tb (map fst (firstn 4 I)).
Proof.
  intros R L4. unfold top_4.
  match goal with |- context [for_ 0 4 ?f ?i] =>
    destruct (for_inv (fun k (tb : buf Z) => blen tb = 4 /\
      forall j, 0 <= j < k -> bget tb j = Some (fst (nth (Z.to_nat j) I de))) 0 4 f i) as (tb & E & H1 & H2) end.
  - lia.
  - split; [reflexivity|]. intros; lia.
  - intros i tb Hi [H1 H2]. rewrite (lrep_load de ib I i R) by lia. cbn [bind]. rewrite store_ok by lia. eexists. split; [reflexivity|].
    split; [exact H1|]. intros j Hj. rewrite bget_bset. destruct (Z.eqb_spec j i) as [->|N]; [auto|]. apply H2. lia.
  - exists tb. split; [exact E|]. split; [rewrite map_length, firstn_length; lia|].
    intros k Hk. rewrite map_length, firstn_length in Hk. rewrite H2 by lia. rewrite Nat2Z.id.
    change 0 with (fst de) at 1. rewrite map_nth. f_equal. f_equal.
    clear -Hk L4. destruct I as [|a [|b [|c [|e I]]]]; cbn in *; try lia. destruct k as [|[|[|[|k]]]]; auto; lia.
Qed.

(** The four indices chosen: increasing, and no other one has a larger angle *)
Lemma indices_ok : exists tb I J, Permutation entries I /\
  (exists r ai t1, fill_angles asin n pts (bnew n, bnew n) = Ok r /\ sort_angles n (snd r) = Ok ai /\
     top_4 ai = Ok t1 /\ sort_top_4 t1 = Ok tb) /\
  lrep 0 tb J /\ Permutation (map fst (firstn 4 I)) J /\ length J = 4%nat /\
  (forall a b, (a < b < 4)%nat -> nth a J 0 < nth b J 0) /\
  (forall j, In j J -> 0 <= j < n) /\
  ((forall k, (k < length l)%nat -> dfinite (bend asin l k) = true) ->
   forall i j, In (Z.of_nat i) J -> (j < length l)%nat -> ~ In (Z.of_nat j) J -> dlt (bend asin l i) (bend asin l j) = false).
Proof.
  assert (nE : n = Z.of_nat (length l)) by reflexivity.
  destruct (fill_angles_ok (bnew n) eq_refl) as (r0 & E0 & R0).
  destruct (sort_angles_ok entries (snd r0)) as (ai & I & E1 & R1 & P1 & S1); [rewrite entries_len; lia|auto|].
  rewrite entries_len in E1.
  pose proof (Permutation_length P1) as LI. rewrite entries_len in LI.
  destruct (top_4_ok ai I R1 ltac:(lia)) as (t1 & E2 & R2).
  destruct (sort_top_4_ok (map fst (firstn 4 I)) t1) as (tb & J & E3 & R3 & P3 & S3); [rewrite map_length, firstn_length; lia|auto|].
  pose proof (Permutation_length P3) as LJ. rewrite map_length, firstn_length in LJ.
  assert (NDe : NoDup (map fst entries)).
  { unfold entries. rewrite map_map. cbn [fst]. apply FinFun.Injective_map_NoDup; [intros a b; lia|apply seq_NoDup]. }
  assert (NDI : NoDup (map fst I)) by (eapply Permutation_NoDup; [apply Permutation_map; exact P1|auto]).
  assert (NDf : NoDup (map fst (firstn 4 I))).
  { rewrite <- (firstn_skipn 4 I), map_app in NDI. eapply nodup_left; exact NDI. }
  assert (NDJ : NoDup J) by (eapply Permutation_NoDup; eauto).
  assert (InE : forall e, In e entries -> exists k, (k < length l)%nat /\ e = (Z.of_nat k, bend asin l k)).
  { intros e He. unfold entries in He. apply in_map_iff in He. destruct He as (k & <- & Hk). apply in_seq in Hk. exists k. split; [lia|auto]. }
  assert (InI : forall e, In e I -> exists k, (k < length l)%nat /\ e = (Z.of_nat k, bend asin l k)).
  { intros e He. apply InE. apply Permutation_in with I; [symmetry; auto|auto]. }
  assert (JI : forall j, In j J -> exists e, In e (firstn 4 I) /\ fst e = j).
  { intros j Hj. apply (Permutation_in _ (Permutation_sym P3)) in Hj. apply in_map_iff in Hj. destruct Hj as (e & Ee & He). eauto. }
  assert (Fst : forall e, In e (firstn 4 I) -> In e I).
  { intros e He. rewrite <- (firstn_skipn 4 I). apply in_or_app. auto. }
  exists tb, I, J. split; [exact P1|]. split.
  { exists r0, ai, t1. auto. }
  split; [exact R3|]. split; [exact P3|]. split; [lia|]. split; [|split].
  - intros a b Hab. pose proof (S3 a b Hab). assert (nth a J 0 <> nth b J 0); [|lia].
    intros X. apply (NoDup_nth J 0) in X; auto; lia.
  - intros j Hj. destruct (JI j Hj) as (e & He & <-). destruct (InI e (Fst e He)) as (k & Hk & ->). cbn [fst]. lia.
  - intros F i j Hi Hj Hnj. destruct (JI _ Hi) as (e & He & Ee).
    destruct (InI e (Fst e He)) as (k & Hk & Ek). assert (k = i) by (rewrite Ek in Ee; cbn in Ee; lia). subst k.
    assert (Ij : In (Z.of_nat j, bend asin l j) I).
    { apply Permutation_in with entries; auto. unfold entries. apply in_map_iff. exists j. split; auto. apply in_seq. lia. }
    assert (Nj : ~ In (Z.of_nat j, bend asin l j) (firstn 4 I)).
    { intros X. apply Hnj. apply Permutation_in with (map fst (firstn 4 I)); auto. apply in_map_iff. eexists. split; [|exact X]. reflexivity. }
    assert (Sk : In (Z.of_nat j, bend asin l j) (skipn 4 I)).
    { rewrite <- (firstn_skipn 4 I) in Ij. apply in_app_or in Ij. tauto. }
    apply In_nth with (d := de) in He. destruct He as (a & Ha & Na). rewrite firstn_length in Ha.
    apply In_nth with (d := de) in Sk. destruct Sk as (b & Hb & Nb). rewrite skipn_length in Hb.
    assert (Na' : nth a I de = e).
    { rewrite <- Na. clear -Ha LI Hn nE. assert (4 <= length I)%nat by lia. destruct I as [|x0 [|x1 [|x2 [|x3 I]]]]; cbn in *; try lia.
      destruct a as [|[|[|[|a]]]]; auto; lia. }
    assert (Nb' : nth (4 + b) I de = (Z.of_nat j, bend asin l j)).
    { rewrite <- Nb. clear -LI Hn nE. assert (4 <= length I)%nat by lia. destruct I as [|x0 [|x1 [|x2 [|x3 I]]]]; cbn in *; try lia. reflexivity. }
    assert (Fin : forall e, In e entries -> dfinite (snd e) = true).
    { intros e' He'. destruct (InE e' He') as (k & Hk' & ->). apply F. auto. }
    specialize (S1 Fin a (4 + b)%nat ltac:(lia)). rewrite Na', Nb', Ek in S1. cbn [snd] in S1.
    rewrite (dlt_R _ _ _ _ (isd_finite _ (F i Hk)) (isd_finite _ (F j Hj))). apply Rlt_bool_false. exact S1.
Qed.
End Angles.

Lemma four_corners_ok w h ow oh pts l k0 k1 k2 k3 : lrep (d0, d0) pts l ->
  (k0 < length l)%nat -> (k1 < length l)%nat -> (k2 < length l)%nat -> (k3 < length l)%nat ->
  four_corners (ddiv (d_of_Z w) (d_of_Z ow)) (ddiv (d_of_Z h) (d_of_Z oh)) pts (Z.of_nat k0) (Z.of_nat k1) (Z.of_nat k2) (Z.of_nat k3) =
  Ok (mkc (scaled w h ow oh (nth k0 l (d0, d0))) (scaled w h ow oh (nth k1 l (d0, d0)))
          (scaled w h ow oh (nth k2 l (d0, d0))) (scaled w h ow oh (nth k3 l (d0, d0)))).
Proof.
  intros R H0 H1 H2 H3. unfold four_corners, corner_at.
  rewrite !(lrep_load (d0, d0) pts l _ R) by lia. cbn [bind]. rewrite !Nat2Z.id. reflexivity.
Qed.

Definition chosen (asin : f64 -> f64) (w h ow oh : Z) (l' : list (f64 * f64)) (c : corners) : Prop :=
  exists k0 k1 k2 k3, (k0 < k1 < k2 /\ k2 < k3 < length l')%nat /\
    c = mkc (scaled w h ow oh (nth k0 l' (d0, d0))) (scaled w h ow oh (nth k1 l' (d0, d0)))
            (scaled w h ow oh (nth k2 l' (d0, d0))) (scaled w h ow oh (nth k3 l' (d0, d0))) /\
    ((forall k, (k < length l')%nat -> dfinite (bend asin l' k) = true) ->
     forall i j, In i [k0; k1; k2; k3] -> (j < length l')%nat -> ~ In j [k0; k1; k2; k3] ->
       dlt (bend asin l' i) (bend asin l' j) = false).

Lemma get_dbl_at s i b : mem s i = Some (ODbl b) -> get_dbl (Ptr i) s = Ok (b, s).
Proof. unfold get_dbl, bindM, get_obj; intros ->; reflexivity. Qed.
Lemma get_ints_at s i b : mem s i = Some (OInts b) -> get_ints (Ptr i) s = Ok (b, s).
Proof. unfold get_ints, bindM, get_obj; intros ->; reflexivity. Qed.

Lemma choose_ok asin w h ow oh s L s1 q pts l : over s L s1 -> (forall n, orc s n = true) ->
  In (q, OPts pts) L -> lrep (d0, d0) pts l -> (4 <= length l)%nat -> Z.of_nat (length l) < 2147483648 ->
  exists c s2, choose asin (ddiv (d_of_Z w) (d_of_Z ow)) (ddiv (d_of_Z h) (d_of_Z oh)) (Z.of_nat (length l)) (Ptr q) s1 = Ok (c, s2) /\
    over s L s2 /\ chosen asin w h ow oh l c.
Proof.
  intros O A Hq R L4 Lm. unfold choose. destruct (Z.ltb_spec 4 (Z.of_nat (length l))) as [G4|G4].
  - destruct (indices_ok asin l pts ltac:(lia) R) as (tb & I & J & P & (r & ai & t1 & F1 & F2 & F3 & F4) & RJ & PJ & LJ & SJ & BJ & TJ).
    destruct (over_alloc s L s1 (ODbl (bnew (Z.of_nat (length l)))) O A) as (i1 & s2 & E2 & O2).
    rewrite (bindM_Ok _ _ _ _ _ E2). cbv beta.
    destruct (over_alloc s _ s2 (OInts (bnew (2 * Z.of_nat (length l)))) O2 A) as (i2 & s3 & E3 & O3).
    rewrite (bindM_Ok _ _ _ _ _ E3). cbv beta.
    rewrite (bindM_Ok _ _ _ _ _ (get_pts_ok s3 q pts (over_at _ _ _ _ _ O3 (or_intror (or_intror Hq))))). cbv beta.
    rewrite (bindM_Ok _ _ _ _ _ (get_dbl_at s3 i1 _ (over_at _ _ _ _ _ O3 (or_intror (or_introl eq_refl))))). cbv beta.
    rewrite (bindM_Ok _ _ _ _ _ (get_ints_at s3 i2 _ (over_at _ _ _ _ _ O3 (or_introl eq_refl)))). cbv beta.
    rewrite (bindM_lift _ _ _ _ F1). rewrite (bindM_lift _ _ _ _ F2). rewrite (bindM_lift _ _ _ _ F3). rewrite (bindM_lift _ _ _ _ F4).
    assert (LJ' : forall k, (k < 4)%nat -> load tb (Z.of_nat k) = Ok (Z.of_nat (Z.to_nat (nth k J 0)))).
    { intros k Hk. rewrite (lrep_load 0 tb J _ RJ) by lia. rewrite Nat2Z.id. f_equal.
      assert (0 <= nth k J 0 < Z.of_nat (length l)); [|lia]. apply BJ. apply nth_In. lia. }
    rewrite (bindM_lift _ _ _ _ (LJ' 0%nat ltac:(lia))). rewrite (bindM_lift _ _ _ _ (LJ' 1%nat ltac:(lia))).
    rewrite (bindM_lift _ _ _ _ (LJ' 2%nat ltac:(lia))). rewrite (bindM_lift _ _ _ _ (LJ' 3%nat ltac:(lia))).
    assert (B : forall k, (k < 4)%nat -> 0 <= nth k J 0 < Z.of_nat (length l)) by (intros k Hk; apply BJ, nth_In; lia).
    pose proof (B 0%nat ltac:(lia)). pose proof (B 1%nat ltac:(lia)). pose proof (B 2%nat ltac:(lia)). pose proof (B 3%nat ltac:(lia)).
    pose proof (SJ 0%nat 1%nat ltac:(lia)). pose proof (SJ 1%nat 2%nat ltac:(lia)). pose proof (SJ 2%nat 3%nat ltac:(lia)).
    rewrite (bindM_lift _ _ _ _ (four_corners_ok w h ow oh pts l (Z.to_nat (nth 0 J 0)) (Z.to_nat (nth 1 J 0)) (Z.to_nat (nth 2 J 0)) (Z.to_nat (nth 3 J 0)) R ltac:(lia) ltac:(lia) ltac:(lia) ltac:(lia))).
    destruct (over_free_in s i1 _ [_] L s3 O3) as (s4 & E4 & O4). rewrite (bindM_Ok _ _ _ _ _ E4). cbv beta.
    destruct (over_free s i2 _ L s4 O4) as (s5 & E5 & O5). rewrite (bindM_Ok _ _ _ _ _ E5). cbv beta.
    eexists _, s5. split; [reflexivity|]. split; [exact O5|].
    exists (Z.to_nat (nth 0 J 0)), (Z.to_nat (nth 1 J 0)), (Z.to_nat (nth 2 J 0)), (Z.to_nat (nth 3 J 0)).
    split; [lia|]. split; [reflexivity|]. intros F i j Hi Hj Hn.
    assert (JE : J = [nth 0 J 0; nth 1 J 0; nth 2 J 0; nth 3 J 0]).
    { clear - LJ. destruct J as [|x0 [|x1 [|x2 [|x3 [|x4 J]]]]]; try discriminate. reflexivity. }
    apply (TJ F i j); auto.
    + rewrite JE. destruct Hi as [<-|[<-|[<-|[<-|[]]]]]; rewrite Z2Nat.id by lia; cbn; tauto.
    + intros X. apply Hn. rewrite JE in X. destruct X as [X|[X|[X|[X|[]]]]]; rewrite X, Nat2Z.id; cbn; tauto.
  - assert (E4 : length l = 4%nat) by lia. rewrite E4. change (Z.of_nat 4) with 4.
    rewrite (bindM_Ok _ _ _ _ _ (get_pts_ok s1 q pts (over_at _ _ _ _ _ O Hq))). cbv beta.
    rewrite (bindM_lift (rem_u32 1 4) _ _ 1 eq_refl). rewrite (bindM_lift (rem_u32 2 4) _ _ 2 eq_refl). rewrite (bindM_lift (rem_u32 3 4) _ _ 3 eq_refl).
    unfold lift. pose proof (four_corners_ok w h ow oh pts l 0 1 2 3 R ltac:(lia) ltac:(lia) ltac:(lia) ltac:(lia)) as F.
    change (Z.of_nat 0) with 0 in F. change (Z.of_nat 1) with 1 in F. change (Z.of_nat 2) with 2 in F. change (Z.of_nat 3) with 3 in F.
    rewrite F. eexists _, s1. split; [reflexivity|]. split; [exact O|].
    exists 0%nat, 1%nat, 2%nat, 3%nat. split; [lia|]. split; [reflexivity|]. intros _ i j _ Hj Hn. exfalso. apply Hn. cbn. lia.
Qed.
