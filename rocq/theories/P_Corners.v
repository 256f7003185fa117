(** * P_Corners: proofs about sort_corners.c *)
From Verif Require Import Base BaseLemmas F FLemmas Heap Spec HeapLemmas Spec_Corners M_Corners ExUtil.
From Coq Require Import Sorting.Permutation Reals Psatz.
From Flocq Require Import Core.
Local Open Scope Z_scope.

(** ** Buffers as lists *)
Definition lrep {A} (d : A) (b : buf A) (l : list A) : Prop :=
  blen b = Z.of_nat (length l) /\ forall k, (k < length l)%nat -> bget b (Z.of_nat k) = Some (nth k l d).

Lemma lrep_load {A} (d : A) b l k : lrep d b l -> 0 <= k < Z.of_nat (length l) -> load b k = Ok (nth (Z.to_nat k) l d).
Proof.
  intros [L G] Hk. apply load_ok; [lia|]. replace k with (Z.of_nat (Z.to_nat k)) at 1 by lia. apply G. lia.
Qed.

Definition swapl {A} (d : A) (j : nat) (l : list A) : list A :=
  firstn j l ++ nth (S j) l d :: nth j l d :: skipn (S (S j)) l.

Lemma split2 {A} (d : A) j (l : list A) : (S j < length l)%nat ->
  l = firstn j l ++ nth j l d :: nth (S j) l d :: skipn (S (S j)) l.
Proof.
  revert l. induction j; intros l H.
  - destruct l as [|a [|b l]]; cbn in *; try lia. reflexivity.
  - destruct l as [|a l]; cbn in H; [lia|]. cbn [firstn nth skipn app]. f_equal. apply IHj. lia.
Qed.

Lemma swapl_perm {A} (d : A) j l : (S j < length l)%nat -> Permutation l (swapl d j l).
Proof.
  intros H. rewrite (split2 d j l H) at 1. unfold swapl. apply Permutation_app_head. apply perm_swap.
Qed.

Lemma swapl_length {A} (d : A) j l : (S j < length l)%nat -> length (swapl d j l) = length l.
Proof. intros H. symmetry. apply Permutation_length. apply swapl_perm; auto. Qed.

Lemma swapl_nth {A} (d : A) j l k : (S j < length l)%nat ->
  nth k (swapl d j l) d = if Nat.eqb k j then nth (S j) l d else if Nat.eqb k (S j) then nth j l d else nth k l d.
Proof.
  intros H. unfold swapl.
  assert (F : length (firstn j l) = j) by (rewrite firstn_length; lia).
  destruct (Nat.eqb_spec k j) as [->|N1].
  { rewrite app_nth2 by lia. rewrite F, Nat.sub_diag. reflexivity. }
  destruct (Nat.eqb_spec k (S j)) as [->|N2].
  { rewrite app_nth2 by lia. rewrite F. replace (S j - j)%nat with 1%nat by lia. reflexivity. }
  transitivity (nth k (firstn j l ++ nth j l d :: nth (S j) l d :: skipn (S (S j)) l) d); [|rewrite <- split2 by auto; reflexivity].
  destruct (Nat.lt_ge_cases k j).
  - rewrite !app_nth1 by lia. reflexivity.
  - rewrite !app_nth2 by lia. rewrite F. destruct (k - j)%nat as [|[|m]] eqn:E; [lia|lia|]. reflexivity.
Qed.

Lemma lrep_swap {A} (d : A) b l j : lrep d b l -> 0 <= j -> j + 1 < Z.of_nat (length l) ->
  lrep d (bset (bset b j (nth (S (Z.to_nat j)) l d)) (j + 1) (nth (Z.to_nat j) l d)) (swapl d (Z.to_nat j) l).
Proof.
  intros [L G] Hj Hj1. split.
  - cbn [blen bset]. rewrite swapl_length by lia. exact L.
  - intros k Hk. rewrite swapl_length in Hk by lia. rewrite swapl_nth by lia. cbn [bset bget].
    destruct (Z.eqb_spec (Z.of_nat k) (j + 1)) as [E|E].
    + destruct (Nat.eqb_spec k (Z.to_nat j)); [lia|]. destruct (Nat.eqb_spec k (S (Z.to_nat j))); [reflexivity|lia].
    + destruct (Z.eqb_spec (Z.of_nat k) j) as [E'|E'].
      * destruct (Nat.eqb_spec k (Z.to_nat j)); [reflexivity|lia].
      * destruct (Nat.eqb_spec k (Z.to_nat j)); [lia|]. destruct (Nat.eqb_spec k (S (Z.to_nat j))); [lia|]. apply G. lia.
Qed.

Lemma firstn_snoc {A} (d : A) i l : (i < length l)%nat -> firstn (S i) l = firstn i l ++ [nth i l d].
Proof.
  revert l; induction i; intros l H; destruct l as [|a l]; cbn in H; try lia; [reflexivity|].
  cbn [firstn nth app]. f_equal. apply IHi. lia.
Qed.

Lemma map_nth_seq {A} (d : A) l : map (fun k => nth k l d) (seq 0 (length l)) = l.
Proof.
  induction l as [|a l IH]; [reflexivity|]. cbn [length seq map]. f_equal.
  rewrite <- seq_shift, map_map. exact IH.
Qed.

(** ** Angles *)
Definition TP : R := B2R d2pi.
Lemma TP_val : TP = (884279719003555 * / 140737488355328)%R.
Proof. unfold TP. vm_compute B2R. lra. Qed.
Lemma TP_isd : isd d2pi TP.
Proof. split; [vm_compute; reflexivity|reflexivity]. Qed.
Lemma dpi_val : (2 * B2R dpi = TP)%R.
Proof. rewrite TP_val. vm_compute B2R. lra. Qed.
Lemma TP_pos : (6 < TP < 7)%R.
Proof. rewrite TP_val. lra. Qed.
Lemma rd_TP : rd TP = TP.
Proof.
  rewrite TP_val. replace (884279719003555 * / 140737488355328)%R with (IZR 884279719003555 * bpow radix2 (-47))%R.
  - apply rd_dyadic; lia.
  - change (bpow radix2 (-47)) with (/ IZR 140737488355328)%R. reflexivity.
Qed.
Lemma rd_opp r : rd (- r) = (- rd r)%R.
Proof. apply round_NE_opp. Qed.
Lemma rd_mTP : rd (- TP) = (- TP)%R.
Proof. rewrite rd_opp, rd_TP. reflexivity. Qed.
Lemma rd_mono x y : (x <= y)%R -> (rd x <= rd y)%R.
Proof. apply gr_le. exact prec64. Qed.
Lemma rd_0 : rd 0 = 0%R.
Proof. apply gr_0. Qed.
Lemma small_big r : (Rabs r <= 100)%R -> (Rabs r <= bpow radix2 1000)%R.
Proof. intros H. apply abs_big with 100; auto. lia. Qed.

(** NaN or a number in [lo, hi] *)
Definition nr (lo hi : R) (x : f64) : Prop := x = B754_nan \/ exists r, isd x r /\ (lo <= r <= hi)%R.

Lemma is_nan_eq (x : f64) : is_nan x = true -> x = B754_nan.
Proof. destruct x; try discriminate; reflexivity. Qed.

Lemma dadd_nan_l y : dadd B754_nan y = B754_nan.
Proof. destruct y; reflexivity. Qed.
Lemma dsub_nan_l y : dsub B754_nan y = B754_nan.
Proof. destruct y; reflexivity. Qed.
Lemma dsub_nan_r x : dsub x B754_nan = B754_nan.
Proof. destruct x; reflexivity. Qed.

Lemma dlt0_R x r : isd x r -> dlt x d0 = Rlt_bool r 0.
Proof. intros H. rewrite (dlt_R x d0 r 0); auto. apply isd_d0. Qed.

Lemma plus_turn x r : isd x r -> (- TP <= r < 0)%R -> exists r', isd (dadd x d2pi) r' /\ (0 <= r' <= TP)%R.
Proof.
  intros H Hr. pose proof TP_pos. exists (rd (r + TP)). split.
  - apply dadd_R; [exact H|apply TP_isd|]. apply small_big. apply Rabs_le. lra.
  - split; [rewrite <- rd_0|rewrite <- rd_TP at 2]; apply rd_mono; lra.
Qed.

Lemma direction_range at2 c p : atan2_ok at2 -> nr 0 TP (direction at2 c p).
Proof.
  intros Ha. unfold direction. cbv zeta.
  generalize (Ha (dsub (snd p) (snd c)) (dsub (fst p) (fst c))).
  generalize (at2 (dsub (snd p) (snd c)) (dsub (fst p) (fst c))). intros a [[N _]|[F B]].
  - rewrite (is_nan_eq a N). left. reflexivity.
  - assert (D : isd a (B2R a)) by (split; auto). pose proof dpi_val. pose proof TP_pos.
    apply Rabs_le_inv in B. rewrite (dlt0_R a _ D).
    destruct (Rlt_bool_spec (B2R a) 0) as [L|L].
    + right. destruct (plus_turn a _ D) as (r' & D' & R'); [lra|]. exists r'. split; auto.
    + right. exists (B2R a). split; auto. lra.
Qed.

Lemma diff_range x y : nr 0 TP x -> nr 0 TP y -> nr (- TP) TP (dsub x y).
Proof.
  intros [->|(a & Da & Ra)] Hy; [left; apply dsub_nan_l|].
  destruct Hy as [->|(b & Db & Rb)]; [left; apply dsub_nan_r|].
  right. pose proof TP_pos. exists (rd (a - b)). split.
  - apply dsub_R; auto. apply small_big. apply Rabs_le. lra.
  - split; [rewrite <- rd_mTP|rewrite <- rd_TP]; apply rd_mono; lra.
Qed.

Definition wrap (a : f64) : f64 :=
  let a := if dlt a d0 then dadd a d2pi else a in
  if dle d2pi a then dsub a d2pi else a.

Lemma turn_wrap at2 c t p : turn at2 c t p = wrap (dsub (direction at2 c p) (direction at2 c t)).
Proof. reflexivity. Qed.

Lemma normalize_ok fuel a : (3 <= fuel)%nat -> nr (- TP) TP a ->
  normalize fuel a = Ok (wrap a) /\ (wrap a = B754_nan \/ exists r, isd (wrap a) r /\ (0 <= r < TP)%R).
Proof.
  intros Hf H. destruct fuel as [|[|[|fuel]]]; try lia. pose proof TP_pos. unfold normalize, wrap.
  destruct H as [->|(r & D & R)].
  { change (dlt B754_nan d0) with false. change (dle d2pi B754_nan) with false. cbn [while_]. cbv beta iota.
    change (dlt B754_nan d0) with false. cbn [bind]. change (dle d2pi B754_nan) with false. cbn [bind]. auto. }
  assert (HA : exists a1 r1, (if dlt a d0 then dadd a d2pi else a) = a1 /\ isd a1 r1 /\ (0 <= r1 <= TP)%R /\
     while_ (S (S (S fuel))) (fun a => if dlt a d0 then Ok (inl (dadd a d2pi)) else Ok (inr a)) a = Ok a1).
  { cbn [while_]. rewrite (dlt0_R a r D). destruct (Rlt_bool_spec r 0) as [L|L].
    - destruct (plus_turn a r D) as (r' & D' & R'); [lra|]. cbn [bind].
      exists (dadd a d2pi), r'. do 2 (split; auto). split; auto.
      rewrite (dlt0_R _ r' D'). rewrite Rlt_bool_false by lra. reflexivity.
    - exists a, r. cbn [bind]. do 2 (split; auto). split; [lra|reflexivity]. }
  destruct HA as (a1 & r1 & -> & D1 & R1 & ->). cbn [bind]. cbn [while_].
  rewrite (dle_R d2pi a1 TP r1 TP_isd D1). destruct (Rle_bool_spec TP r1) as [L|L].
  - assert (r1 = TP) by lra. subst r1.
    assert (D2 : isd (dsub a1 d2pi) 0).
    { replace 0%R with (rd (TP - TP)) by (replace (TP - TP)%R with 0%R by lra; apply rd_0).
      apply dsub_R; auto; [apply TP_isd|]. apply small_big. apply Rabs_le. lra. }
    cbn [bind]. rewrite (dle_R d2pi _ TP 0 TP_isd D2). rewrite Rle_bool_false by lra. cbn [bind]. split; auto.
    right. exists 0%R. split; auto. lra.
  - cbn [bind]. split; auto. right. exists r1. split; auto. lra.
Qed.

Lemma turn_ok fuel at2 c t p : atan2_ok at2 -> (3 <= fuel)%nat ->
  normalize fuel (dsub (direction at2 c p) (direction at2 c t)) = Ok (turn at2 c t p) /\
  (turn at2 c t p = B754_nan \/ exists r, isd (turn at2 c t p) r /\ (0 <= r < TP)%R).
Proof.
  intros Ha Hf. rewrite turn_wrap. apply normalize_ok; auto. apply diff_range; apply direction_range; auto.
Qed.

(** ** The steps of the function *)
Section Steps.
Variables (at2 : f64 -> f64 -> f64) (L : list (f64 * f64)) (wk : buf (f64 * f64)).
Hypothesis Ha : atan2_ok at2.
Let n := Z.of_nat (length L).
Hypothesis Hn : 3 < n < 4294967296.
Hypothesis Hwk : lrep (d0, d0) wk L.

Definition lpt (k : Z) : f64 * f64 := nth (Z.to_nat k) L (d0, d0).

Lemma load_wk k : 0 <= k < n -> load wk k = Ok (lpt k).
Proof. intros Hk. apply lrep_load; auto. Qed.

Lemma find_centre_ok : find_centre n wk = Ok (centre L).
Proof.
  unfold find_centre. assert (nE : n = Z.of_nat (length L)) by reflexivity.
  destruct (for_inv (fun i s => s = (fold_left dadd (map fst (firstn (Z.to_nat i) L)) d0, fold_left dadd (map snd (firstn (Z.to_nat i) L)) d0)) 0 n
    (fun i s => p <- load wk i ;; Ok (dadd (fst s) (fst p), dadd (snd s) (snd p))) (d0, d0)) as (s & -> & E).
  - lia.
  - reflexivity.
  - intros i s Hi ->. rewrite load_wk by auto. cbn [bind fst snd]. eexists. split; [reflexivity|].
    replace (Z.to_nat (i + 1)) with (S (Z.to_nat i)) by lia. rewrite (firstn_snoc (d0, d0)) by lia.
    rewrite !map_app, !fold_left_app. reflexivity.
  - cbn [bind]. subst s. cbn [fst snd]. replace (Z.to_nat n) with (length L) by lia. rewrite firstn_all.
    unfold centre, mean. rewrite !map_length. reflexivity.
Qed.

Definition csum (k : Z) : R := B2R (coord_sum (lpt k)).

Lemma tame_sum p : tame p -> isd (coord_sum p) (B2R (coord_sum p)).
Proof.
  intros (F1 & F2 & B1 & B2). apply isd_finite.
  assert (D : isd (coord_sum p) (rd (B2R (fst p) + B2R (snd p)))).
  { apply dadd_R; [apply isd_finite; auto|apply isd_finite; auto|]. apply abs_big with 4294967296; [|lia].
    eapply Rle_trans; [apply Rabs_triang|]. lra. }
  apply D.
Qed.

Lemma lpt_in k : 0 <= k < n -> In (lpt k) L.
Proof. intros. apply nth_In. unfold n in *. lia. Qed.

Lemma find_top_left_ok : exists t, find_top_left n wk = Ok t /\ 0 <= t < n /\
  ((forall p, In p L -> tame p) -> (forall k, 0 <= k < t -> (csum t < csum k)%R) /\ (forall k, t <= k < n -> (csum t <= csum k)%R)).
Proof.
  unfold find_top_left. assert (nE : n = Z.of_nat (length L)) by reflexivity.
  rewrite load_wk by lia. cbn [bind].
  match goal with |- context [for_ 1 n ?f ?s0] =>
  destruct (for_inv (fun i s => 0 <= fst s < i /\ snd s = coord_sum (lpt (fst s)) /\
     ((forall p, In p L -> tame p) -> (forall k, 0 <= k < fst s -> (csum (fst s) < csum k)%R) /\ (forall k, fst s <= k < i -> (csum (fst s) <= csum k)%R))) 1 n f s0) as ([t m] & -> & Ht & Em & HS) end.
  - lia.
  - cbn [fst snd]. split; [lia|]. split; [reflexivity|]. intros _. split; [intros; lia|]. intros k Hk. replace k with 0 by lia. lra.
  - intros i [t m] Hi (Ht & Em & HS). cbn [fst snd] in *. rewrite load_wk by lia. cbn [bind]. eexists. split; [reflexivity|].
    change (dadd (fst (lpt i)) (snd (lpt i))) with (coord_sum (lpt i)).
    assert (C : (forall p, In p L -> tame p) -> dlt (coord_sum (lpt i)) m = Rlt_bool (csum i) (csum t)).
    { intros T. rewrite Em. apply dlt_R; apply tame_sum; apply T; apply lpt_in; lia. }
    destruct (dlt (coord_sum (lpt i)) m) eqn:E; cbn [fst snd].
    + split; [lia|]. split; auto. intros T. destruct (HS T) as [H1 H2]. specialize (C T). symmetry in C.
      assert (C' : (csum i < csum t)%R) by (destruct (Rlt_bool_spec (csum i) (csum t)); [auto|discriminate]).
      split.
      * intros k Hk. destruct (Z.lt_ge_cases k t).
        -- specialize (H1 k ltac:(lia)). lra.
        -- specialize (H2 k ltac:(lia)). lra.
      * intros k Hk. replace k with i by lia. lra.
    + split; [lia|]. split; auto. intros T. destruct (HS T) as [H1 H2]. specialize (C T). symmetry in C.
      assert (C' : (csum t <= csum i)%R) by (destruct (Rlt_bool_spec (csum i) (csum t)); [discriminate|auto]).
      split; auto. intros k Hk. destruct (Z.eq_dec k i) as [->|]; [auto|apply H2; lia].
  - exists t. cbn [fst snd bind] in *. auto.
Qed.

Lemma top_left_idx t k : (forall p, In p L -> tame p) -> top_left L t ->
  0 <= k < n -> (forall j, 0 <= j < k -> (csum k < csum j)%R) -> (forall j, k <= j < n -> (csum k <= csum j)%R) -> lpt k = t.
Proof.
  intros T (l1 & l2 & E & A & B) Hk H1 H2. assert (nE : n = Z.of_nat (length L)) by reflexivity.
  assert (Len : length L = (length l1 + S (length l2))%nat) by (rewrite E, app_length; reflexivity).
  assert (Et : lpt (Z.of_nat (length l1)) = t).
  { unfold lpt. rewrite Nat2Z.id, E, nth_middle. reflexivity. }
  assert (Ct : B2R (coord_sum t) = csum (Z.of_nat (length l1))) by (unfold csum; rewrite Et; reflexivity).
  assert (Tt : tame t) by (apply T; rewrite E; apply in_or_app; right; left; auto).
  assert (Tk : tame (lpt k)) by (apply T; apply lpt_in; auto).
  destruct (Z.lt_trichotomy k (Z.of_nat (length l1))) as [Lt|[->|Gt]]; auto; exfalso.
  - assert (I : In (lpt k) l1).
    { unfold lpt. rewrite E, app_nth1 by lia. apply nth_In. lia. }
    specialize (A _ I). rewrite (dlt_R _ _ _ _ (tame_sum _ Tt) (tame_sum _ Tk)) in A.
    specialize (H2 (Z.of_nat (length l1)) ltac:(lia)). rewrite <- Ct in H2. unfold csum in H2.
    destruct (Rlt_bool_spec (B2R (coord_sum t)) (B2R (coord_sum (lpt k)))); [lra|discriminate].
  - assert (I : In (lpt k) l2).
    { unfold lpt. rewrite E, app_nth2 by lia. destruct (Z.to_nat k - length l1)%nat as [|m] eqn:Em; [lia|]. cbn [nth]. apply nth_In. lia. }
    specialize (B _ I). rewrite (dlt_R _ _ _ _ (tame_sum _ Tk) (tame_sum _ Tt)) in B.
    specialize (H1 (Z.of_nat (length l1)) ltac:(lia)). rewrite <- Ct in H1. unfold csum in H1.
    destruct (Rlt_bool_spec (B2R (coord_sum (lpt k))) (B2R (coord_sum t))); [discriminate|lra].
Qed.

(** Info records *)
Definition dist_of (p : f64 * f64) : f64 :=
  let dx := dsub (fst p) (fst (centre L)) in
  let dy := dsub (snd p) (snd (centre L)) in dsqrt (dadd (dmul dx dx) (dmul dy dy)).

Definition frep {A} (b : buf A) (f : Z -> A) : Prop := blen b = n /\ forall k, 0 <= k < n -> bget b k = Some (f k).

Lemma fill_info_ok : exists ib, fill_info at2 n wk (centre L) (bnew n) = Ok ib /\
  frep ib (fun k => (k, direction at2 (centre L) (lpt k), dist_of (lpt k))).
Proof.
  unfold fill_info. assert (nE : n = Z.of_nat (length L)) by reflexivity.
  match goal with |- context [for_ 0 n ?f ?s0] => set (body := f); set (st0 := s0) end.
  destruct (for_inv (fun i (ib : buf info) => blen ib = n /\ forall k, 0 <= k < i -> bget ib k = Some (k, direction at2 (centre L) (lpt k), dist_of (lpt k))) 0 n body st0) as (ib & EQ & Bl & G).
  - lia.
  - split; [reflexivity|]. intros; lia.
  - intros i ib Hi [Bl G]. unfold body. rewrite load_wk by auto. cbn [bind]. cbv zeta. rewrite store_ok by lia. eexists. split; [reflexivity|].
    split; [exact Bl|]. intros k Hk. cbn [bset bget]. destruct (Z.eqb_spec k i) as [->|]; [reflexivity|apply G; lia].
  - exists ib. split; [exact EQ|]. split; auto.
Qed.

Definition info_of (t : f64 * f64) (k : Z) : info := (k, turn at2 (centre L) t (lpt k), dist_of (lpt k)).

Lemma adjust_ok fuel tli ib : (3 <= fuel)%nat -> 0 <= tli < n ->
  frep ib (fun k => (k, direction at2 (centre L) (lpt k), dist_of (lpt k))) ->
  exists ib', adjust fuel n tli ib = Ok ib' /\ frep ib' (info_of (lpt tli)).
Proof.
  intros Hf Ht [Bl G]. unfold adjust. assert (nE : n = Z.of_nat (length L)) by reflexivity.
  rewrite (load_ok ib tli (tli, direction at2 (centre L) (lpt tli), dist_of (lpt tli))) by (auto; lia). cbn [bind]. cbv zeta.
  change (i_angle (tli, direction at2 (centre L) (lpt tli), dist_of (lpt tli))) with (direction at2 (centre L) (lpt tli)).
  match goal with |- context [for_ 0 n ?f ?s0] => set (body := f); set (st0 := s0) end.
  destruct (for_inv (fun i (ib : buf info) => blen ib = n /\ (forall k, 0 <= k < i -> bget ib k = Some (info_of (lpt tli) k)) /\
      forall k, i <= k < n -> bget ib k = Some (k, direction at2 (centre L) (lpt k), dist_of (lpt k))) 0 n body st0) as (ib' & EQ & Bl' & G' & _).
  - lia.
  - split; auto. split; [intros; lia|]. intros k Hk; apply G; lia.
  - intros i ib1 Hi (B1 & G1 & G2). unfold body.
    rewrite (load_ok ib1 i (i, direction at2 (centre L) (lpt i), dist_of (lpt i))) by (auto; try lia; apply G2; lia). cbn [bind].
    unfold i_angle, i_index, i_dist. cbn [fst snd].
    destruct (turn_ok fuel at2 (centre L) (lpt tli) (lpt i) Ha Hf) as [-> _]. cbn [bind].
    rewrite store_ok by lia. eexists. split; [reflexivity|]. split; [exact B1|]. cbn [bset bget]. split.
    + intros k Hk. destruct (Z.eqb_spec k i) as [->|]; [reflexivity|apply G1; lia].
    + intros k Hk. destruct (Z.eqb_spec k i); [lia|apply G2; lia].
  - exists ib'. split; [exact EQ|]. split; auto.
Qed.

Definition infos (t : f64 * f64) : list info := map (fun k => info_of t (Z.of_nat k)) (seq 0 (length L)).

Definition di : info := (0, d0, d0).

Lemma infos_len t : length (infos t) = length L.
Proof. unfold infos. rewrite map_length, seq_length. reflexivity. Qed.
Lemma infos_nth t k : (k < length L)%nat -> nth k (infos t) di = info_of t (Z.of_nat k).
Proof.
  intros Hk. unfold infos. rewrite nth_indep with (d' := info_of t (Z.of_nat 0)) by (rewrite map_length, seq_length; auto).
  rewrite (map_nth (fun k => info_of t (Z.of_nat k))), seq_nth by auto. reflexivity.
Qed.

Lemma frep_lrep t ib : frep ib (info_of t) -> lrep di ib (infos t).
Proof.
  intros [Bl G]. split; [rewrite infos_len; exact Bl|]. intros k Hk. rewrite infos_len in Hk. rewrite infos_nth by auto. apply G. unfold n. lia.
Qed.
End Steps.

(** ** Bubble sort *)
Section Bubble.
Variables (I0 : list info).
Let n := Z.of_nat (length I0).
Hypothesis Hn : 1 <= n < 4294967296.

Definition kr (e : info) : R := B2R (i_angle e).
(** All angles are numbers, and those of different records are told apart. *)
Definition sepd : Prop := NoDup (map i_index I0) /\ (forall e, In e I0 -> dfinite (i_angle e) = true) /\
  forall e f, In e I0 -> In f I0 -> i_index e <> i_index f ->
    dlt (dabs (dsub (i_angle e) (i_angle f))) (lit 1 1000000) = false.

Lemma nodup_pos I a b : NoDup (map i_index I) -> (a < b < length I)%nat -> i_index (nth a I di) <> i_index (nth b I di).
Proof.
  intros N H E. rewrite (NoDup_nth (map i_index I) (i_index di)) in N. specialize (N a b). rewrite !map_length in N.
  rewrite !(map_nth i_index) in N. specialize (N ltac:(lia) ltac:(lia) E). lia.
Qed.

Lemma swap_cases e f : sepd -> In e I0 -> In f I0 -> i_index e <> i_index f ->
  if should_swap e f then (kr f < kr e)%R else (kr e < kr f)%R.
Proof.
  intros (N & F & A) He Hf Ne. unfold should_swap.
  pose proof (isd_finite _ (F e He)) as De. pose proof (isd_finite _ (F f Hf)) as Df.
  rewrite (dlt_R _ _ _ _ Df De). fold (kr e) (kr f). rewrite (A e f He Hf Ne).
  destruct (Rlt_bool_spec (kr f) (kr e)) as [Lt|Ge]; auto.
  destruct Ge as [Lt|E]; auto. exfalso.
  specialize (A e f He Hf Ne). unfold kr in E. rewrite E in De.
  assert (Z : isd (dsub (i_angle e) (i_angle f)) 0).
  { replace 0%R with (rd (B2R (i_angle f) - B2R (i_angle f))) by (rewrite Rminus_diag_eq by reflexivity; apply rd_0).
    apply dsub_R; auto. rewrite Rminus_diag_eq by reflexivity. rewrite Rabs_R0. apply bpow_ge_0. }
  apply dabs_R in Z. rewrite Rabs_R0 in Z.
  assert (Dl : isd (lit 1 1000000) (B2R (lit 1 1000000))) by (apply isd_finite; vm_compute; reflexivity).
  rewrite (dlt_R _ _ _ _ Z Dl) in A. revert A. rewrite Rlt_bool_true; [discriminate|].
  vm_compute B2R. lra.
Qed.

Definition binv (i j : Z) (ib : buf info) : Prop := exists I, lrep di ib I /\ Permutation I0 I /\
  (sepd ->
   (forall a b, (a < b < length I)%nat -> n - i <= Z.of_nat b -> (kr (nth a I di) < kr (nth b I di))%R) /\
   (forall a, Z.of_nat a < j -> (kr (nth a I di) < kr (nth (Z.to_nat j) I di))%R)).

Lemma bubble_step i j ib : 0 <= i < n - 1 -> 0 <= j < n - 1 - i -> binv i j ib -> exists ib',
  (e <- load ib j ;; f <- load ib (u32 (j + 1)) ;;
   if should_swap e f then ib <- store ib j f ;; store ib (u32 (j + 1)) e else Ok ib) = Ok ib' /\ binv i (j + 1) ib'.
Proof.
  intros Hi Hj (I & R & P & S). assert (nE : n = Z.of_nat (length I0)) by reflexivity.
  pose proof (Permutation_length P) as LI. rewrite u32_small by lia.
  rewrite (lrep_load di ib I j R) by lia. cbn [bind]. rewrite (lrep_load di ib I (j + 1) R) by lia. cbn [bind].
  replace (Z.to_nat (j + 1)) with (Datatypes.S (Z.to_nat j)) by lia.
  set (e := nth (Z.to_nat j) I di). set (f := nth (Datatypes.S (Z.to_nat j)) I di).
  assert (SW : sepd -> if should_swap e f then (kr f < kr e)%R else (kr e < kr f)%R).
  { intros SE. apply swap_cases; auto.
    - apply Permutation_in with I; [symmetry; auto|]. apply nth_In. lia.
    - apply Permutation_in with I; [symmetry; auto|]. apply nth_In. lia.
    - apply nodup_pos; [|lia]. apply Permutation_NoDup with (map i_index I0); [|apply SE]. apply Permutation_map; auto. }
  destruct (should_swap e f).
  - pose proof (proj1 R) as BL.
    rewrite store_ok by lia. cbn [bind]. rewrite store_ok by (cbn [blen bset]; lia). eexists. split; [reflexivity|].
    exists (swapl di (Z.to_nat j) I). split; [apply lrep_swap; auto; lia|]. split.
    { eapply Permutation_trans; [exact P|]. apply swapl_perm. lia. }
    intros SE. destruct (S SE) as [S1 S2]. specialize (SW SE). rewrite swapl_length by lia. split.
    + intros a b Hab Hb. rewrite !swapl_nth by lia.
      destruct (Nat.eqb_spec b (Z.to_nat j)); [lia|]. destruct (Nat.eqb_spec b (Datatypes.S (Z.to_nat j))); [lia|].
      destruct (Nat.eqb_spec a (Z.to_nat j)); [apply S1; lia|]. destruct (Nat.eqb_spec a (Datatypes.S (Z.to_nat j))); apply S1; lia.
    + intros a Hab. replace (Z.to_nat (j + 1)) with (Datatypes.S (Z.to_nat j)) by lia. rewrite !swapl_nth by lia.
      rewrite Nat.eqb_refl. destruct (Nat.eqb_spec (Datatypes.S (Z.to_nat j)) (Z.to_nat j)); [lia|].
      destruct (Nat.eqb_spec a (Z.to_nat j)); [exact SW|]. destruct (Nat.eqb_spec a (Datatypes.S (Z.to_nat j))); [lia|]. apply S2. lia.
  - eexists. split; [reflexivity|]. exists I. split; auto. split; auto. intros SE. destruct (S SE) as [S1 S2]. specialize (SW SE).
    split; auto. intros a Hab. replace (Z.to_nat (j + 1)) with (Datatypes.S (Z.to_nat j)) by lia. fold f.
    destruct (Z.eq_dec (Z.of_nat a) j) as [E|E].
    + replace a with (Z.to_nat j) by lia. exact SW.
    + apply Rlt_trans with (kr e); auto. apply S2. lia.
Qed.

Lemma bubble_ok ib : lrep di ib I0 -> exists ib' I, bubble n ib = Ok ib' /\ lrep di ib' I /\ Permutation I0 I /\
  (sepd -> forall a b, (a < b < length I)%nat -> (kr (nth a I di) < kr (nth b I di))%R).
Proof.
  intros R. assert (nE : n = Z.of_nat (length I0)) by reflexivity. unfold bubble. rewrite u32_small by lia.
  destruct (for_inv (fun i ib => binv i 0 ib) 0 (n - 1) (fun i ib =>
    for_ 0 (u32 (n - 1 - i)) (fun j ib =>
      e <- load ib j ;;
      f <- load ib (u32 (j + 1)) ;;
      if should_swap e f then
        ib <- store ib j f ;;
        store ib (u32 (j + 1)) e
      else Ok ib) ib) ib) as (ib' & -> & I & R' & P & S).
  - lia.
  - exists I0. split; auto. split; auto. intros _. split; intros; lia.
  - intros i ib1 Hi HI. rewrite u32_small by lia.
    destruct (for_inv (fun j ib => binv i j ib) 0 (n - 1 - i) (fun j ib =>
      e <- load ib j ;;
      f <- load ib (u32 (j + 1)) ;;
      if should_swap e f then
        ib <- store ib j f ;;
        store ib (u32 (j + 1)) e
      else Ok ib) ib1) as (ib2 & E2 & I & R2 & P2 & S2).
    + lia.
    + exact HI.
    + intros j ib2 Hj H2. apply (bubble_step i j ib2); auto; lia.
    + exists ib2. split; auto. exists I. split; auto. split; auto. intros SE. destruct (S2 SE) as [A B].
      split; [|intros; lia]. intros a b Hab Hb. destruct (Z.eq_dec (Z.of_nat b) (n - (i + 1))) as [E|E].
      * replace b with (Z.to_nat (n - 1 - i)) by lia. apply B. lia.
      * apply A; auto. lia.
  - exists ib', I. split; auto. split; auto. split; auto. intros SE a b Hab. destruct (S SE) as [A _]. apply A; auto. lia.
Qed.
End Bubble.

(** ** Tame points have finite angles *)
Lemma sum_finite (xs : list f64) : Z.of_nat (length xs) <= 1048576 ->
  (forall x, In x xs -> dfinite x = true /\ (Rabs (B2R x) <= 2147483648)%R) ->
  exists r, isd (fold_left dadd xs d0) r /\ (Rabs r <= IZR (Z.of_nat (length xs) * 2147483648))%R.
Proof.
  intros HL H. induction xs as [|x xs IH] using rev_ind.
  - exists 0%R. split; [apply isd_d0|]. rewrite Rabs_R0. apply IZR_le. cbn. lia.
  - rewrite app_length in *. cbn [length] in *. destruct IH as (r & D & B).
    { lia. }
    { intros y Hy. apply H. apply in_or_app. auto. }
    destruct (H x) as [Fx Bx]; [apply in_or_app; right; left; auto|].
    rewrite fold_left_app. cbn [fold_left].
    set (k := Z.of_nat (length xs)) in *. replace (Z.of_nat (length xs + 1)) with (k + 1) by (unfold k; lia).
    assert (Hb : (Rabs (r + B2R x) <= IZR ((k + 1) * 2147483648))%R).
    { eapply Rle_trans; [apply Rabs_triang|]. rewrite Z.mul_add_distr_r, Z.mul_1_l, plus_IZR. lra. }
    exists (rd (r + B2R x)). split.
    + apply dadd_R; auto; [apply isd_finite; auto|]. apply abs_big with ((k + 1) * 2147483648); auto. lia.
    + apply Rabs_le_inv in Hb. destruct Hb as [Hb1 Hb2]. apply Rabs_le. split.
      * rewrite <- opp_IZR in *. apply rd_ge_Z; auto. lia.
      * apply rd_le_Z; auto. lia.
Qed.

Lemma mean_finite (xs : list f64) : (0 < length xs)%nat -> Z.of_nat (length xs) <= 1048576 ->
  (forall x, In x xs -> dfinite x = true /\ (Rabs (B2R x) <= 2147483648)%R) ->
  exists r, isd (mean xs) r /\ (Rabs r <= IZR 2251799813685248)%R.
Proof.
  intros H0 HL H. destruct (sum_finite xs HL H) as (r & D & B). unfold mean.
  assert (P : (1 <= IZR (Z.of_nat (length xs)))%R) by (apply IZR_le; lia).
  assert (Q : (Rabs (r / IZR (Z.of_nat (length xs))) <= IZR 2251799813685248)%R).
  { unfold Rdiv. rewrite Rabs_mult. rewrite (Rabs_pos_eq (/ _)) by (left; apply Rinv_0_lt_compat; lra).
    assert (/ IZR (Z.of_nat (length xs)) <= 1)%R by (rewrite <- Rinv_1; apply Rinv_le_contravar; lra).
    assert (Rabs r <= IZR 2251799813685248)%R by (eapply Rle_trans; [exact B|]; apply IZR_le; lia).
    pose proof (Rabs_pos r). assert (0 < / IZR (Z.of_nat (length xs)))%R by (apply Rinv_0_lt_compat; lra). nra. }
  exists (rd (r / IZR (Z.of_nat (length xs)))). split.
  - apply ddiv_R; auto; [apply d_of_Z_exact; lia|lra|]. apply abs_big with 2251799813685248; auto. lia.
  - apply Rabs_le_inv in Q. destruct Q. apply Rabs_le. rewrite <- opp_IZR in *. split; [apply rd_ge_Z|apply rd_le_Z]; auto; lia.
Qed.

Lemma isd_not_nan x r : isd x r -> is_nan x = false.
Proof. intros [F _]. destruct x; try reflexivity; discriminate. Qed.

Lemma tame_direction at2 L p : atan2_ok at2 -> (0 < length L)%nat -> Z.of_nat (length L) <= 1048576 ->
  (forall p, In p L -> tame p) -> In p L -> exists r, isd (direction at2 (centre L) p) r /\ (0 <= r <= TP)%R.
Proof.
  intros Ha H0 HL T Hp.
  destruct (direction_range at2 (centre L) p Ha) as [N|H]; [exfalso|exact H].
  destruct (mean_finite (map fst L)) as (cx & Dx & Bx); try (rewrite map_length; auto).
  { intros x Hx. apply in_map_iff in Hx. destruct Hx as (q & <- & Hq). destruct (T q Hq) as (A & B & C & D). auto. }
  destruct (mean_finite (map snd L)) as (cy & Dy & By); try (rewrite map_length; auto).
  { intros x Hx. apply in_map_iff in Hx. destruct Hx as (q & <- & Hq). destruct (T q Hq) as (A & B & C & D). auto. }
  destruct (T p Hp) as (F1 & F2 & B1 & B2).
  assert (X1 : is_nan (dsub (fst p) (fst (centre L))) = false).
  { eapply isd_not_nan. apply dsub_R; [apply isd_finite; exact F1|exact Dx|]. apply abs_big with 2251801961168896; [|lia].
    apply Rabs_le_inv in B1. apply Rabs_le_inv in Bx. apply Rabs_le. lra. }
  assert (X2 : is_nan (dsub (snd p) (snd (centre L))) = false).
  { eapply isd_not_nan. apply dsub_R; [apply isd_finite; exact F2|exact Dy|]. apply abs_big with 2251801961168896; [|lia].
    apply Rabs_le_inv in B2. apply Rabs_le_inv in By. apply Rabs_le. lra. }
  revert N. unfold direction. cbv zeta.
  destruct (Ha (dsub (snd p) (snd (centre L))) (dsub (fst p) (fst (centre L)))) as [[_ [N|N]]|[F B]]; try congruence.
  revert F B. generalize (at2 (dsub (snd p) (snd (centre L))) (dsub (fst p) (fst (centre L)))). intros a F B.
  assert (D : isd a (B2R a)) by (split; auto). pose proof dpi_val. pose proof TP_pos. apply Rabs_le_inv in B.
  rewrite (dlt0_R a _ D). destruct (Rlt_bool_spec (B2R a) 0) as [Lt|Ge].
  - destruct (plus_turn a _ D) as (r' & D' & _); [lra|]. intros N. rewrite N in D'. destruct D'. discriminate.
  - intros N. rewrite N in F. discriminate.
Qed.

Lemma tame_turn at2 L t p : atan2_ok at2 -> (0 < length L)%nat -> Z.of_nat (length L) <= 1048576 ->
  (forall p, In p L -> tame p) -> In t L -> In p L -> exists r, isd (turn at2 (centre L) t p) r /\ (0 <= r)%R.
Proof.
  intros Ha H0 HL T Ht Hp.
  destruct (tame_direction at2 L p Ha H0 HL T Hp) as (a & Da & Ra). destruct (tame_direction at2 L t Ha H0 HL T Ht) as (b & Db & Rb).
  destruct (turn_ok 3 at2 (centre L) t p Ha (le_n _)) as [_ [N|(r & D & R)]].
  - exfalso. revert N. rewrite turn_wrap. unfold wrap. pose proof TP_pos.
    assert (D : isd (dsub (direction at2 (centre L) p) (direction at2 (centre L) t)) (rd (a - b))).
    { apply dsub_R; auto. apply small_big. apply Rabs_le. lra. }
    assert (HR : (- TP <= rd (a - b) <= TP)%R).
    { split; [rewrite <- rd_mTP|rewrite <- rd_TP]; apply rd_mono; lra. }
    revert D HR. generalize (dsub (direction at2 (centre L) p) (direction at2 (centre L) t)) (rd (a - b)). intros x r D HR.
    cbv zeta. rewrite (dlt0_R x r D).
    assert (HX : exists r1, isd (if Rlt_bool r 0 then dadd x d2pi else x) r1 /\ (0 <= r1 <= TP)%R).
    { destruct (Rlt_bool_spec r 0); [apply plus_turn with r; auto; lra|exists r; split; auto; lra]. }
    destruct HX as (r1 & D1 & R1). revert D1. generalize (if Rlt_bool r 0 then dadd x d2pi else x). intros y D1.
    rewrite (dle_R d2pi y TP r1 TP_isd D1). destruct (Rle_bool TP r1); intros N.
    + assert (D2 : isd (dsub y d2pi) (rd (r1 - TP))).
      { apply dsub_R; auto; [apply TP_isd|]. apply small_big. apply Rabs_le. lra. }
      rewrite N in D2. destruct D2. discriminate.
    + rewrite N in D1. destruct D1. discriminate.
  - exists r. split; auto. lra.
Qed.

Lemma turn_self at2 L t : atan2_ok at2 -> (0 < length L)%nat -> Z.of_nat (length L) <= 1048576 ->
  (forall p, In p L -> tame p) -> In t L -> isd (turn at2 (centre L) t t) 0.
Proof.
  intros Ha H0 HL T Ht. destruct (tame_direction at2 L t Ha H0 HL T Ht) as (a & Da & Ra). rewrite turn_wrap. unfold wrap.
  assert (D : isd (dsub (direction at2 (centre L) t) (direction at2 (centre L) t)) 0).
  { replace 0%R with (rd (a - a)) by (rewrite Rminus_diag_eq by reflexivity; apply rd_0).
    apply dsub_R; auto. rewrite Rminus_diag_eq by reflexivity. rewrite Rabs_R0. apply bpow_ge_0. }
  revert D. generalize (dsub (direction at2 (centre L) t) (direction at2 (centre L) t)). intros x D. cbv zeta.
  rewrite (dlt0_R x 0 D), Rlt_bool_false by lra. rewrite (dle_R d2pi x TP 0 TP_isd D). pose proof TP_pos.
  rewrite Rle_bool_false by lra. exact D.
Qed.

Lemma copy_sorted_ok (L : list (f64 * f64)) wk ib I r : lrep (d0, d0) wk L -> lrep di ib I -> length I = length L ->
  (forall e, In e I -> 0 <= i_index e < Z.of_nat (length L)) -> Z.of_nat (length L) <= blen r ->
  exists r', copy_sorted (Z.of_nat (length L)) ib wk r = Ok r' /\ blen r' = blen r /\
    forall k, bget r' k = if (0 <=? k) && (k <? Z.of_nat (length L)) then Some (nth (Z.to_nat k) (map (fun e => lpt L (i_index e)) I) (d0, d0)) else bget r k.
Proof.
  intros W R LI HI HB. unfold copy_sorted. set (n := Z.of_nat (length L)) in *. assert (nE : n = Z.of_nat (length L)) by reflexivity.
  destruct (for_inv (fun i b => blen b = blen r /\ forall k, bget b k = if (0 <=? k) && (k <? i) then Some (nth (Z.to_nat k) (map (fun e => lpt L (i_index e)) I) (d0, d0)) else bget r k) 0 n
    (fun i result => e <- load ib i ;; p <- load wk (i_index e) ;; store result i p) r) as (r' & -> & B & G).
  - lia.
  - split; auto. intros k. replace ((0 <=? k) && (k <? 0)) with false by lia. reflexivity.
  - intros i b Hi [B G]. rewrite (lrep_load di ib I i R) by lia. cbn [bind].
    rewrite (lrep_load (d0, d0) wk L _ W) by (apply HI; apply nth_In; lia). cbn [bind].
    rewrite store_ok by lia. eexists. split; [reflexivity|]. split; [exact B|]. intros k. cbn [bset bget].
    destruct (Z.eqb_spec k i) as [->|Ne].
    + replace ((0 <=? i) && (i <? i + 1)) with true by lia. f_equal.
      rewrite (nth_indep (map (fun e => lpt L (i_index e)) I) (d0, d0) (lpt L (i_index di))) by (rewrite map_length; lia).
      rewrite (map_nth (fun e => lpt L (i_index e))). reflexivity.
    + rewrite G. replace ((0 <=? k) && (k <? i + 1)) with ((0 <=? k) && (k <? i)) by lia. reflexivity.
  - exists r'. auto.
Qed.

(** Pure part: from the working corners to the sorted ones *)
Lemma pure_ok at2 fuel (L : list (f64 * f64)) wk : atan2_ok at2 -> (3 <= fuel)%nat ->
  3 < Z.of_nat (length L) < 4294967296 -> lrep (d0, d0) wk L ->
  exists tli ib1 ib2 ib3 I, find_top_left (Z.of_nat (length L)) wk = Ok tli /\
    fill_info at2 (Z.of_nat (length L)) wk (centre L) (bnew (Z.of_nat (length L))) = Ok ib1 /\
    adjust fuel (Z.of_nat (length L)) tli ib1 = Ok ib2 /\ bubble (Z.of_nat (length L)) ib2 = Ok ib3 /\
    lrep di ib3 I /\ length I = length L /\ (forall e, In e I -> 0 <= i_index e < Z.of_nat (length L)) /\
    sorted_clockwise at2 L (map (fun e => lpt L (i_index e)) I).
Proof.
  intros Ha Hf Hn W.
  destruct (find_top_left_ok L wk Hn W) as (tli & E1 & Ht & HT).
  destruct (fill_info_ok at2 L wk Hn W) as (ib1 & E2 & R1).
  destruct (adjust_ok at2 L Ha Hn fuel tli ib1 Hf Ht R1) as (ib2 & E3 & R2).
  apply frep_lrep in R2. set (t := lpt L tli) in *. set (I0 := infos at2 L t) in *.
  assert (LI0 : length I0 = length L) by apply infos_len.
  assert (IN : forall e, In e I0 -> exists k, 0 <= k < Z.of_nat (length L) /\ e = info_of at2 L t k).
  { intros e He. destruct (In_nth I0 e di He) as (k & Hk & <-). exists (Z.of_nat k). split; [lia|].
    unfold I0. rewrite infos_nth by lia. reflexivity. }
  destruct (bubble_ok I0 ltac:(rewrite LI0; lia) ib2 R2) as (ib3 & I & E4 & R3 & P & S).
  rewrite LI0 in E4. pose proof (Permutation_length P) as LI.
  assert (HI : forall e, In e I -> exists k, 0 <= k < Z.of_nat (length L) /\ e = info_of at2 L t k).
  { intros e He. apply IN. apply Permutation_in with I; auto. symmetry; auto. }
  exists tli, ib1, ib2, ib3, I. do 5 (split; [assumption|]). split; [lia|]. split.
  { intros e He. destruct (HI e He) as (k & Hk & ->). exact Hk. }
  assert (M0 : map (fun e => lpt L (i_index e)) I0 = L).
  { unfold I0, infos. rewrite map_map. unfold info_of, i_index, lpt. cbn [fst snd].
    transitivity (map (fun k => nth k L (d0, d0)) (seq 0 (length L))); [|apply map_nth_seq].
    apply map_ext. intros k. rewrite Nat2Z.id. reflexivity. }
  split.
  { rewrite <- M0 at 1. apply Permutation_map. exact P. }
  intros t' TL HL T HA.
  destruct (HT T) as [T1 T2].
  assert (Et : t = t') by (apply (top_left_idx L ltac:(lia) t' tli); auto). rewrite <- Et in *. clear t' Et.
  assert (Hin : In t L) by (apply lpt_in; auto).
  assert (SE : sepd I0).
  { split; [|split].
    - unfold I0, infos. rewrite map_map. unfold info_of, i_index. cbn [fst snd].
      apply FinFun.Injective_map_NoDup; [|apply seq_NoDup]. intros x y Hxy. lia.
    - intros e He. destruct (IN e He) as (k & Hk & ->). unfold i_angle, info_of. cbn [fst snd].
      destruct (tame_turn at2 L t (lpt L k) Ha ltac:(lia) HL T Hin (lpt_in L Hn k Hk)) as (r & [D _] & _). exact D.
    - assert (AP : forall x y, 0 <= x -> x < y -> y < Z.of_nat (length L) -> apart (turn at2 (centre L) t (lpt L x)) (turn at2 (centre L) t (lpt L y))).
      { intros x y Hx Hxy Hy. apply (HA (Z.to_nat x) (Z.to_nat y)). lia. }
      intros e f He Hf' Ne. destruct (IN e He) as (k & Hk & ->). destruct (IN f Hf') as (m & Hm & ->).
      unfold i_index, info_of in Ne. cbn [fst] in Ne. unfold i_angle, info_of. cbn [fst snd].
      destruct (Z.lt_ge_cases k m).
      + apply AP; lia.
      + specialize (AP m k ltac:(lia) ltac:(lia) ltac:(lia)). unfold apart in AP. rewrite <- AP.
        destruct (tame_turn at2 L t (lpt L k) Ha ltac:(lia) HL T Hin (lpt_in L Hn k Hk)) as (r1 & D1 & R1').
        destruct (tame_turn at2 L t (lpt L m) Ha ltac:(lia) HL T Hin (lpt_in L Hn m Hm)) as (r2 & D2 & R2').
        destruct (turn_ok 3 at2 (centre L) t (lpt L k) Ha (le_n _)) as [_ [N|(r1' & D1' & R1'')]]; [rewrite N in D1; destruct D1; discriminate|].
        destruct (turn_ok 3 at2 (centre L) t (lpt L m) Ha (le_n _)) as [_ [N|(r2' & D2' & R2'')]]; [rewrite N in D2; destruct D2; discriminate|].
        pose proof TP_pos.
        assert (A1 : isd (dabs (dsub (turn at2 (centre L) t (lpt L k)) (turn at2 (centre L) t (lpt L m)))) (Rabs (rd (r1' - r2')))).
        { apply dabs_R. apply dsub_R; auto. apply small_big. apply Rabs_le. lra. }
        assert (A2 : isd (dabs (dsub (turn at2 (centre L) t (lpt L m)) (turn at2 (centre L) t (lpt L k)))) (Rabs (rd (r2' - r1')))).
        { apply dabs_R. apply dsub_R; auto. apply small_big. apply Rabs_le. lra. }
        assert (Dl : isd (lit 1 1000000) (B2R (lit 1 1000000))) by (apply isd_finite; vm_compute; reflexivity).
        rewrite (dlt_R _ _ _ _ A1 Dl), (dlt_R _ _ _ _ A2 Dl). f_equal.
        replace (r1' - r2')%R with (- (r2' - r1'))%R by ring. rewrite rd_opp, Rabs_Ropp. reflexivity. }
  specialize (S SE). rewrite map_length.
  assert (NT : forall a, (a < length I)%nat -> nth a (map (fun e => lpt L (i_index e)) I) (d0, d0) = lpt L (i_index (nth a I di)) /\
     i_angle (nth a I di) = turn at2 (centre L) t (lpt L (i_index (nth a I di))) /\ In (lpt L (i_index (nth a I di))) L).
  { intros a Hlt. rewrite (nth_indep (map (fun e => lpt L (i_index e)) I) (d0, d0) (lpt L (i_index di))) by (rewrite map_length; lia).
    rewrite (map_nth (fun e => lpt L (i_index e))). split; auto.
    destruct (HI (nth a I di) (nth_In _ _ Hlt)) as (k & Hk & ->). split; [reflexivity|]. apply (lpt_in L Hn). exact Hk. }
  split.
  - assert (He : In (info_of at2 L t tli) I).
    { apply Permutation_in with I0; auto. replace (info_of at2 L t tli) with (nth (Z.to_nat tli) I0 di).
      - apply nth_In. lia.
      - unfold I0. rewrite infos_nth by lia. f_equal. lia. }
    destruct (In_nth I _ di He) as (a & Hlt & Ea). destruct (Nat.eq_dec a 0) as [->|Nz].
    + destruct (NT 0%nat Hlt) as [-> _]. rewrite Ea. reflexivity.
    + exfalso. specialize (S 0%nat a ltac:(lia)). rewrite Ea in S.
      destruct (NT 0%nat ltac:(lia)) as (_ & A0 & In0). unfold kr in S. rewrite A0 in S.
      destruct (tame_turn at2 L t _ Ha ltac:(lia) HL T Hin In0) as (r & [_ D] & R).
      unfold i_angle, info_of in S. cbn [fst snd] in S. fold t in S.
      destruct (turn_self at2 L t Ha ltac:(lia) HL T Hin) as [_ D0]. rewrite D, D0 in S. lra.
  - intros i j Hij. destruct (NT i ltac:(lia)) as (-> & Ai & Ii). destruct (NT j ltac:(lia)) as (-> & Aj & Ij).
    specialize (S i j Hij). unfold kr in S. rewrite Ai, Aj in S.
    destruct (tame_turn at2 L t _ Ha ltac:(lia) HL T Hin Ii) as (r1 & D1 & _).
    destruct (tame_turn at2 L t _ Ha ltac:(lia) HL T Hin Ij) as (r2 & D2 & _).
    rewrite (dlt_R _ _ _ _ D1 D2). destruct D1 as [_ D1], D2 as [_ D2]. rewrite D1, D2 in S. apply Rlt_bool_true. exact S.
Qed.

(** ** The whole function *)
Lemma get_pts_ok s i b : mem s i = Some (OPts b) -> get_pts (Ptr i) s = Ok (b, s).
Proof. unfold get_pts, bindM, get_obj; intros ->; reflexivity. Qed.
Lemma put_obj_ok s i o o' : mem s i = Some o ->
  put_obj (Ptr i) o' s = Ok (tt, mkst (upd (mem s) i (Some o')) (nxt s) (orc s) (tick s)).
Proof. unfold put_obj; intros ->; reflexivity. Qed.
Ltac hpts := erewrite bindM_Ok; [| eapply get_pts_ok; mem_lookup ]; cbv beta.
Ltac hputo := erewrite bindM_Ok; [| eapply put_obj_ok; mem_lookup ]; cbv beta; cbn [mem nxt orc tick].

Lemma sort_gen at2 fuel w h ow oh s q l r rb L : atan2_ok at2 -> (3 <= fuel)%nat -> wf s ->
  holds_points s q l -> (exists i, r = Ptr i /\ mem s i = Some (OPts rb)) ->
  3 <= Z.of_nat (length l) < 4294967296 -> 3 < Z.of_nat (length L) -> Z.of_nat (length L) = Z.max 4 (Z.of_nat (length l)) ->
  Z.of_nat (length L) <= blen rb ->
  (forall cb, Z.of_nat (length l) <= blen cb -> (forall k, (k < length l)%nat -> bget cb (Z.of_nat k) = Some (nth k l (d0, d0))) ->
     exists wk, fill_working (Z.of_nat (length l)) cb (bnew (Z.of_nat (length L))) = Ok (wk, Z.of_nat (length L)) /\ lrep (d0, d0) wk L) ->
  writes_corners w h ow oh s r (sort_corners at2 fuel w h ow oh q (Z.of_nat (length l)) r s) (sorted_clockwise at2 L).
Proof.
  intros Ha Hf Hwf (iq & cb & -> & Mq & Lq & Gq) (ir & -> & Mr) Hl HL EL HB HF.
  destruct (HF cb Lq Gq) as (wk & EF & W). clear HF.
  destruct (pure_ok at2 fuel L wk Ha Hf ltac:(lia) W) as (tli & ib1 & ib2 & ib3 & I & E1 & E2 & E3 & E4 & R3 & LI & HI & SC).
  destruct (copy_sorted_ok L wk ib3 I rb W R3 LI HI HB) as (r' & E5 & B5 & G5).
  unfold sort_corners. replace (Z.of_nat (length l) <? 3) with false by lia. cbv zeta.
  replace (if 4 <=? Z.of_nat (length l) then Z.of_nat (length l) else 4) with (Z.of_nat (length L))
    by (destruct (Z.leb_spec 4 (Z.of_nat (length l))); lia).
  pose proof (holds_lt s iq _ Hwf Mq) as Liq. pose proof (holds_lt s ir _ Hwf Mr) as Lir.
  halloc EA O1; [exact Hwf| |].
  { eexists no_corners, _. split; [reflexivity|]. split; [later_tac Hwf|]. left. split; [mem_same Hwf|]. split; auto. exists (tick s). cbn [tick]. split; auto; lia. }
  hpts. hpts. hlift EF. cbv iota. hputo. hlift (find_centre_ok L wk ltac:(lia) W). hlift E1.
  halloc EA O2; [wf_tac Hwf| |].
  { hfree. eexists no_corners, _. split; [reflexivity|]. split; [later_tac Hwf|]. left. split; [mem_same Hwf|]. split; auto. eexists. cbn [tick]. split; [|exact O2]. lia. }
  hlift E2. hlift E3. hlift E4. hpts. hlift E5. hputo.
  assert (Lm : length (map (fun e => lpt L (i_index e)) I) = length L) by (rewrite map_length; exact LI).
  revert SC G5 Lm. generalize (map (fun e => lpt L (i_index e)) I). intros l' SC G5 Lm.
  assert (LD : forall k, 0 <= k < 4 -> scale_point (ddiv (d_of_Z w) (d_of_Z ow)) (ddiv (d_of_Z h) (d_of_Z oh)) r' k = Ok (scaled w h ow oh (nth (Z.to_nat k) l' (d0, d0)))).
  { intros k Hk. unfold scale_point. rewrite (load_ok r' k (nth (Z.to_nat k) l' (d0, d0))).
    - reflexivity.
    - lia.
    - rewrite G5. replace ((0 <=? k) && (k <? Z.of_nat (length L))) with true by lia. reflexivity. }
  hlift (LD 0 ltac:(lia)). hlift (LD 1 ltac:(lia)). hlift (LD 2 ltac:(lia)). hlift (LD 3 ltac:(lia)). hfree. hfree.
  unfold ret. eexists _, _. split; [reflexivity|]. split; [later_tac Hwf|]. right.
  exists ir, rb, r', l'. split; auto. split; auto. split; [mem_lookup|]. split.
  { intros j Hj. cbn [mem]. unfold upd.
    repeat match goal with |- context [?a =? ?b] => destruct (Z.eqb_spec a b) end; subst; try lia; try (symmetry; apply Hwf; lia); reflexivity. }
  split; [exact SC|]. split; [exact B5|]. split; [|reflexivity].
  intros k. rewrite Lm. apply G5.
Qed.

Lemma fill_four (l : list (f64 * f64)) cb : 4 <= Z.of_nat (length l) < 4294967296 -> Z.of_nat (length l) <= blen cb ->
  (forall k, (k < length l)%nat -> bget cb (Z.of_nat k) = Some (nth k l (d0, d0))) ->
  exists wk, fill_working (Z.of_nat (length l)) cb (bnew (Z.of_nat (length l))) = Ok (wk, Z.of_nat (length l)) /\ lrep (d0, d0) wk l.
Proof.
  intros Hl HB G. unfold fill_working. replace (Z.of_nat (length l) =? 3) with false by lia.
  set (n := Z.of_nat (length l)) in *. assert (nE : n = Z.of_nat (length l)) by reflexivity.
  destruct (for_inv (fun i wk => blen wk = n /\ forall k, 0 <= k < i -> bget wk k = Some (nth (Z.to_nat k) l (d0, d0))) 0 n
    (fun i wk => p <- load cb i ;; store wk i p) (bnew n)) as (wk & -> & B & G').
  - lia.
  - split; [reflexivity|]. intros; lia.
  - intros i wk Hi [B G'].
    rewrite (load_ok cb i (nth (Z.to_nat i) l (d0, d0))); [|lia|rewrite <- G by lia; f_equal; lia]. cbn [bind].
    rewrite store_ok by lia. eexists. split; [reflexivity|]. split; [exact B|]. intros k Hk. cbn [bset bget].
    destruct (Z.eqb_spec k i) as [->|]; [reflexivity|apply G'; lia].
  - cbn [bind]. exists wk. split; auto. split; auto. intros k Hk. rewrite G' by lia. rewrite Nat2Z.id. reflexivity.
Qed.

Lemma fill_three a b c cb : 3 <= blen cb ->
  (forall k, (k < 3)%nat -> bget cb (Z.of_nat k) = Some (nth k [a; b; c] (d0, d0))) ->
  exists wk, fill_working 3 cb (bnew 4) = Ok (wk, 4) /\ lrep (d0, d0) wk [a; b; c; missing_corner a b c].
Proof.
  intros HB G. unfold fill_working. change (3 =? 3) with true. cbv iota.
  rewrite (load_ok cb 0 a); [|lia|apply (G 0%nat); lia]. cbn [bind].
  rewrite (load_ok cb 1 b); [|lia|apply (G 1%nat); lia]. cbn [bind].
  rewrite (load_ok cb 2 c); [|lia|apply (G 2%nat); lia]. cbn [bind].
  generalize (missing_corner a b c). intros m.
  rewrite !store_ok by (cbn [blen bset bnew]; lia). cbn [bind]. rewrite !store_ok by (cbn [blen bset bnew]; lia). cbn [bind].
  rewrite !store_ok by (cbn [blen bset bnew]; lia). cbn [bind]. rewrite !store_ok by (cbn [blen bset bnew]; lia). cbn [bind].
  eexists. split; [reflexivity|]. split; [reflexivity|]. intros k Hk. cbn [length] in Hk.
  destruct k as [|[|[|[|k]]]]; [reflexivity..|lia].
Qed.

Lemma sort_corners_ok at2 fuel w h ow oh s q l r rb : atan2_ok at2 -> (3 <= fuel)%nat -> wf s ->
  holds_points s q l -> 4 <= Z.of_nat (length l) < 4294967296 ->
  (exists i, r = Ptr i /\ mem s i = Some (OPts rb)) -> Z.of_nat (length l) <= blen rb ->
  writes_corners w h ow oh s r (sort_corners at2 fuel w h ow oh q (Z.of_nat (length l)) r s) (sorted_clockwise at2 l).
Proof.
  intros Ha Hf Hwf Hq Hl Hr HB. eapply sort_gen; eauto; try lia. intros cb H1 H2. apply fill_four; auto.
Qed.

Lemma sort_three_ok at2 fuel w h ow oh s q a b c r rb : atan2_ok at2 -> (3 <= fuel)%nat -> wf s ->
  holds_points s q [a; b; c] -> (exists i, r = Ptr i /\ mem s i = Some (OPts rb)) -> 4 <= blen rb ->
  writes_corners w h ow oh s r (sort_corners at2 fuel w h ow oh q 3 r s) (sorted_clockwise at2 [a; b; c; missing_corner a b c]).
Proof.
  intros Ha Hf Hwf Hq Hr HB. apply (sort_gen at2 fuel w h ow oh s q [a; b; c] r rb [a; b; c; missing_corner a b c]); auto; try (cbn; lia).
  intros cb H1 H2. apply fill_three; auto.
Qed.

Lemma too_few at2 fuel w h ow oh s q n r : 0 <= n < 3 -> sort_corners at2 fuel w h ow oh q n r s = Ok (no_corners, s).
Proof. intros Hn. unfold sort_corners. replace (n <? 3) with true by lia. reflexivity. Qed.

(** ** Three corners of an upright rectangle *)
Definition sm (z : Z) : Prop := Z.abs z <= 2147483648.
Lemma dlt_Z a b : sm a -> sm b -> dlt (d_of_Z a) (d_of_Z b) = (a <? b).
Proof.
  unfold sm. intros Ha Hb. rewrite (dlt_R _ _ (IZR a) (IZR b)) by (apply d_of_Z_exact; lia).
  destruct (Z.ltb_spec a b); [apply Rlt_bool_true; apply IZR_lt; auto|apply Rlt_bool_false; apply IZR_le; auto].
Qed.
Lemma close1_Z a b : sm a -> sm b -> close1 (d_of_Z a) (d_of_Z b) = (a =? b).
Proof.
  unfold sm. intros Ha Hb. unfold close1.
  assert (D : isd (dsub (d_of_Z a) (d_of_Z b)) (IZR (a - b))).
  { rewrite <- (rd_IZR (a - b)) by lia. rewrite minus_IZR. apply dsub_R; try (apply d_of_Z_exact; lia).
    apply abs_big with 4294967296; [|lia]. rewrite <- minus_IZR, <- abs_IZR. apply IZR_le. lia. }
  rewrite (dlt_R _ _ _ 1 (dabs_R _ _ D)) by apply isd_d1. rewrite <- abs_IZR.
  destruct (Z.eqb_spec a b); [apply Rlt_bool_true; apply IZR_lt; lia|apply Rlt_bool_false; apply IZR_le; lia].
Qed.

Definition zbb (bb : Z * Z * Z * Z) : f64 * f64 * f64 * f64 :=
  let '(a, b, c, d) := bb in (d_of_Z a, d_of_Z b, d_of_Z c, d_of_Z d).
Lemma bound_Z a b c d x y : sm a -> sm b -> sm c -> sm d -> sm x -> sm y ->
  bound_step (zbb (a, b, c, d)) (zpt (x, y)) = zbb (Z.min x a, Z.max x b, Z.min y c, Z.max y d).
Proof.
  intros. unfold bound_step, zbb, zpt. cbn [fst snd]. rewrite !dlt_Z by assumption.
  rewrite !Z.min_comm with (n := x), !Z.min_comm with (n := y).
  destruct (Z.ltb_spec x a), (Z.ltb_spec b x), (Z.ltb_spec y c), (Z.ltb_spec d y);
    repeat match goal with
    | |- context [Z.min ?u ?v] => first [rewrite (Z.min_l u v) by lia | rewrite (Z.min_r u v) by lia]
    | |- context [Z.max ?u ?v] => first [rewrite (Z.max_l u v) by lia | rewrite (Z.max_r u v) by lia]
    end; reflexivity.
Qed.
Lemma has_Z a b c d x y has : sm a -> sm b -> sm c -> sm d -> sm x -> sm y ->
  has_step (zbb (a, b, c, d)) has (zpt (x, y)) =
  let '(htl, htr, hbl, hbr) := has in
  if (x =? a) && (y =? c) then (true, htr, hbl, hbr)
  else if (x =? b) && (y =? c) then (htl, true, hbl, hbr)
  else if (x =? a) && (y =? d) then (htl, htr, true, hbr)
  else if (x =? b) && (y =? d) then (htl, htr, hbl, true)
  else has.
Proof. intros. unfold has_step, zbb, zpt. cbn [fst snd]. rewrite !close1_Z by assumption. reflexivity. Qed.

Lemma perm4 {A} (a b c d p q r t : A) : Permutation [a; b; c; d] [p; q; r; t] ->
  (d = p /\ Permutation [a; b; c] [q; r; t]) \/ (d = q /\ Permutation [a; b; c] [p; r; t]) \/
  (d = r /\ Permutation [a; b; c] [p; q; t]) \/ (d = t /\ Permutation [a; b; c] [p; q; r]).
Proof.
  intros P. assert (Hd : In d [p; q; r; t]) by (eapply Permutation_in; [exact P|cbn; auto]).
  assert (P' : Permutation (d :: [a; b; c]) [p; q; r; t]) by (rewrite <- P; apply (Permutation_cons_append [a; b; c] d)).
  destruct Hd as [<-|[<-|[<-|[<-|[]]]]].
  - left. split; auto. eapply Permutation_cons_inv; eauto.
  - right; left. split; auto. eapply Permutation_cons_inv with q. rewrite P'. apply perm_swap.
  - do 2 right; left. split; auto. eapply Permutation_cons_inv with r. rewrite P'. symmetry. apply (Permutation_middle [p; q] [t] r).
  - do 3 right. split; auto. eapply Permutation_cons_inv with t. rewrite P'. symmetry. apply (Permutation_middle [p; q; r] [] t).
Qed.
Lemma perm3 {A} (a b c p q r : A) : Permutation [a; b; c] [p; q; r] ->
  (a, b, c) = (p, q, r) \/ (a, b, c) = (p, r, q) \/ (a, b, c) = (q, p, r) \/ (a, b, c) = (q, r, p) \/ (a, b, c) = (r, p, q) \/ (a, b, c) = (r, q, p).
Proof.
  assert (P2 : forall x y u v : A, Permutation [x; y] [u; v] -> (x = u /\ y = v) \/ (x = v /\ y = u)).
  { intros x y u v P. apply Permutation_length_2_inv in P as [E|E]; injection E as -> ->; auto. }
  intros P. assert (Ha : In a [p; q; r]) by (eapply Permutation_in; [exact P|left; auto]).
  destruct Ha as [<-|[<-|[<-|[]]]].
  - apply Permutation_cons_inv in P. apply P2 in P as [[-> ->]|[-> ->]]; auto.
  - assert (P' : Permutation [b; c] [p; r]) by (apply Permutation_cons_inv with q; rewrite P; apply perm_swap).
    apply P2 in P' as [[-> ->]|[-> ->]]; auto 6.
  - assert (P' : Permutation [b; c] [p; q]).
    { apply Permutation_cons_inv with r; rewrite P. symmetry. apply (Permutation_middle [p; q] [] r). }
    apply P2 in P' as [[-> ->]|[-> ->]]; auto 8.
Qed.

Definition hz (x0 x1 y0 y1 : Z) (has : bool * bool * bool * bool) (p : Z * Z) : bool * bool * bool * bool :=
  let '(htl, htr, hbl, hbr) := has in
  let '(x, y) := p in
  if (x =? x0) && (y =? y0) then (true, htr, hbl, hbr)
  else if (x =? x1) && (y =? y0) then (htl, true, hbl, hbr)
  else if (x =? x0) && (y =? y1) then (htl, htr, true, hbr)
  else if (x =? x1) && (y =? y1) then (htl, htr, hbl, true)
  else has.
Definition pick (x0 x1 y0 y1 : Z) (has : bool * bool * bool * bool) (e : f64 * f64) : f64 * f64 :=
  let '(htl, htr, hbl, hbr) := has in
  if negb htl then zpt (x0, y0) else if negb htr then zpt (x1, y0)
  else if negb hbl then zpt (x0, y1) else if negb hbr then zpt (x1, y1) else e.

Lemma sm_min a b : sm a -> sm b -> sm (Z.min a b).
Proof. unfold sm. lia. Qed.
Lemma sm_max a b : sm a -> sm b -> sm (Z.max a b).
Proof. unfold sm. lia. Qed.
Lemma zbb_start x y : (fst (zpt (x, y)), fst (zpt (x, y)), snd (zpt (x, y)), snd (zpt (x, y))) = zbb (x, x, y, y).
Proof. reflexivity. Qed.
Lemma fold_hz x0 x1 y0 y1 l : sm x0 -> sm x1 -> sm y0 -> sm y1 -> forall has, (forall p, In p l -> sm (fst p) /\ sm (snd p)) ->
  fold_left (has_step (zbb (x0, x1, y0, y1))) (map zpt l) has = fold_left (hz x0 x1 y0 y1) l has.
Proof.
  intros T1 T2 T3 T4. induction l as [|[x y] l IH]; intros has Hl; [reflexivity|]. cbn [map fold_left].
  destruct (Hl (x, y) (or_introl eq_refl)) as [A B]. cbn [fst snd] in A, B.
  rewrite has_Z by assumption. rewrite IH by (intros; apply Hl; right; auto). unfold hz at 3. reflexivity.
Qed.
Definition pickd (bb : f64 * f64 * f64 * f64) (has : bool * bool * bool * bool) (e : f64 * f64) : f64 * f64 :=
  let '(htl, htr, hbl, hbr) := has in
  let '(min_x, max_x, min_y, max_y) := bb in
  if negb htl then (min_x, min_y) else if negb htr then (max_x, min_y)
  else if negb hbl then (min_x, max_y) else if negb hbr then (max_x, max_y) else e.
Lemma missing_pickd a b c : missing_corner a b c =
  pickd (fold_left bound_step [b; c] (fst a, fst a, snd a, snd a))
    (fold_left (has_step (fold_left bound_step [b; c] (fst a, fst a, snd a, snd a))) [a; b; c] (false, false, false, false))
    (fallback a b c).
Proof. reflexivity. Qed.
Lemma pickd_Z x0 x1 y0 y1 has e : pickd (zbb (x0, x1, y0, y1)) has e = pick x0 x1 y0 y1 has e.
Proof. destruct has as [[[h1 h2] h3] h4]. destruct h1, h2, h3, h4; reflexivity. Qed.

Lemma missing_Z x0 x1 y0 y1 ax ay bx by_ cx cy :
  sm ax -> sm ay -> sm bx -> sm by_ -> sm cx -> sm cy ->
  Z.min cx (Z.min bx ax) = x0 -> Z.max cx (Z.max bx ax) = x1 -> Z.min cy (Z.min by_ ay) = y0 -> Z.max cy (Z.max by_ ay) = y1 ->
  missing_corner (zpt (ax, ay)) (zpt (bx, by_)) (zpt (cx, cy)) =
  pick x0 x1 y0 y1 (fold_left (hz x0 x1 y0 y1) [(ax, ay); (bx, by_); (cx, cy)] (false, false, false, false))
    (fallback (zpt (ax, ay)) (zpt (bx, by_)) (zpt (cx, cy))).
Proof.
  intros S1 S2 S3 S4 S5 S6 E1 E2 E3 E4.
  assert (T1 : sm x0) by (rewrite <- E1; auto using sm_min). assert (T2 : sm x1) by (rewrite <- E2; auto using sm_max).
  assert (T3 : sm y0) by (rewrite <- E3; auto using sm_min). assert (T4 : sm y1) by (rewrite <- E4; auto using sm_max).
  assert (BB : fold_left bound_step [zpt (bx, by_); zpt (cx, cy)]
    (fst (zpt (ax, ay)), fst (zpt (ax, ay)), snd (zpt (ax, ay)), snd (zpt (ax, ay))) = zbb (x0, x1, y0, y1)).
  { rewrite zbb_start. cbn [fold_left]. rewrite bound_Z by assumption. rewrite bound_Z by (auto using sm_min, sm_max).
    rewrite E1, E2, E3, E4. reflexivity. }
  rewrite missing_pickd, BB, pickd_Z. f_equal.
  apply (fold_hz x0 x1 y0 y1 [(ax, ay); (bx, by_); (cx, cy)] T1 T2 T3 T4).
  intros p [<-|[<-|[<-|[]]]]; auto.
Qed.

Lemma missing_rect x0 x1 y0 y1 a b c d : x0 < x1 -> y0 < y1 -> sm x0 -> sm x1 -> sm y0 -> sm y1 ->
  Permutation [a; b; c; d] [(x0, y0); (x1, y0); (x0, y1); (x1, y1)] ->
  missing_corner (zpt a) (zpt b) (zpt c) = zpt d.
Proof.
  intros Hx Hy S1 S2 S3 S4 P.
  assert (X1 : x0 =? x1 = false) by lia. assert (X2 : x1 =? x0 = false) by lia.
  assert (Y1 : y0 =? y1 = false) by lia. assert (Y2 : y1 =? y0 = false) by lia.
  apply perm4 in P as [[-> P]|[[-> P]|[[-> P]|[-> P]]]]; apply perm3 in P as [E|[E|[E|[E|[E|E]]]]]; injection E as -> -> ->;
  rewrite (missing_Z x0 x1 y0 y1) by (assumption || lia);
  cbn [fold_left]; do 3 (cbn [hz]; rewrite ?Z.eqb_refl, ?X1, ?X2, ?Y1, ?Y2; cbn [andb]); cbn [pick negb]; reflexivity.
Qed.

Lemma tame_zpt p : sm (fst p) -> sm (snd p) -> tame (zpt p).
Proof.
  unfold sm. intros A B. unfold tame, zpt. cbn [fst snd].
  destruct (d_of_Z_exact (fst p)) as [F1 R1]; [lia|]. destruct (d_of_Z_exact (snd p)) as [F2 R2]; [lia|].
  rewrite R1, R2. do 2 (split; [assumption|]). rewrite <- !abs_IZR. split; apply IZR_le; lia.
Qed.

Lemma three_rect at2 fuel w h ow oh s q a b c d r rb x0 x1 y0 y1 : atan2_ok at2 -> (3 <= fuel)%nat -> wf s ->
  x0 < x1 -> y0 < y1 -> Z.abs x0 <= 2147483648 -> Z.abs x1 <= 2147483648 -> Z.abs y0 <= 2147483648 -> Z.abs y1 <= 2147483648 ->
  Permutation [a; b; c; d] [(x0, y0); (x1, y0); (x0, y1); (x1, y1)] ->
  holds_points s q [zpt a; zpt b; zpt c] -> (exists i, r = Ptr i /\ mem s i = Some (OPts rb)) -> 4 <= blen rb ->
  writes_corners w h ow oh s r (sort_corners at2 fuel w h ow oh q 3 r s) (sorted_clockwise at2 [zpt a; zpt b; zpt c; zpt d]).
Proof.
  intros. rewrite <- (missing_rect x0 x1 y0 y1 a b c d) by assumption. eapply sort_three_ok; eauto.
Qed.

Lemma three_any at2 fuel w h ow oh s q a b c r rb : atan2_ok at2 -> (3 <= fuel)%nat -> wf s ->
  holds_points s q [a; b; c] -> (exists i, r = Ptr i /\ mem s i = Some (OPts rb)) -> 4 <= blen rb ->
  exists m, writes_corners w h ow oh s r (sort_corners at2 fuel w h ow oh q 3 r s) (sorted_clockwise at2 [a; b; c; m]).
Proof. intros. exists (missing_corner a b c). eapply sort_three_ok; eauto. Qed.

(** ** Examples *)
(** A stand-in for atan2, right for the directions (-1,-2), (-1,2), (1,2), (1,-2)
    to two digits, by quadrant. *)
Definition toy_atan2 (y x : f64) : f64 :=
  if dlt y d0 then (if dlt x d0 then lit (-267) 100 else lit (-46) 100)
  else (if dlt x d0 then lit 267 100 else lit 46 100).
(** Another one, right to 15 digits for the directions (-1,-1), (-1.25,6.75) and
    (6.75,-1.25). *)
Definition diag_atan2 (y x : f64) : f64 :=
  if dlt y d0 then (if dlt x d0 then lit (-2356194490192345) 1000000000000000 else lit (-183110817262484) 1000000000000000)
  else (if dlt x d0 then lit 1753907144057381 1000000000000000 else lit 463647609000806 1000000000000000).

Lemma fin_le a : dfinite a = true -> dle (dabs a) dpi = true -> dfinite a = true /\ (Rabs (B2R a) <= B2R dpi)%R.
Proof.
  intros F H. split; auto. rewrite (dle_R _ _ (Rabs (B2R a)) (B2R dpi)) in H.
  - destruct (Rle_bool_spec (Rabs (B2R a)) (B2R dpi)); [auto|discriminate].
  - apply dabs_R. split; auto.
  - apply isd_finite. vm_compute; reflexivity.
Qed.
Lemma toy_ok : atan2_ok toy_atan2.
Proof.
  intros y x. right. unfold toy_atan2. destruct (dlt y d0), (dlt x d0); apply fin_le; vm_compute; reflexivity.
Qed.
Lemma diag_ok : atan2_ok diag_atan2.
Proof.
  intros y x. right. unfold diag_atan2. destruct (dlt y d0), (dlt x d0); apply fin_le; vm_compute; reflexivity.
Qed.

(** Block 0 holds points, block 1 is an array for [n] of them. *)
Definition stp (l : list (f64 * f64)) (n : Z) : st :=
  mkst (upd (upd (fun _ => None) 0 (Some (OPts (of_list l)))) 1 (Some (OPts (bnew n)))) 2 (fun _ => true) 0.
Lemma wf_stp l n : wf (stp l n).
Proof. intros i Hi; cbn [nxt stp mem] in *. rewrite !upd_other by lia. reflexivity. Qed.
Lemma holds_stp l n : holds_points (stp l n) (Ptr 0) l.
Proof.
  exists 0, (of_list l). do 2 (split; [reflexivity|]). split; [cbn; lia|]. intros k Hk. cbn [of_list bget].
  replace (Z.of_nat k <? 0) with false by lia. rewrite Nat2Z.id. apply nth_error_nth'. exact Hk.
Qed.
Definition out_points (r : res (corners * st)) : option (list (option (Z * Z))) :=
  match r with
  | Ok (_, s') => match mem s' 1 with
      | Some (OPts b) => Some (map (option_map (fun p => (Btrunc (fst p), Btrunc (snd p)))) (to_list b))
      | _ => None end
  | _ => None
  end.
Definition out_corners (r : res (corners * st)) : list (Z * Z) :=
  match r with
  | Ok (c, _) => map (fun p => (Btrunc (fst p), Btrunc (snd p))) [tl c; tr c; br c; bl c]
  | _ => []
  end.

Lemma top_left_first t l : forallb (fun q => negb (dlt (coord_sum q) (coord_sum t))) l = true -> top_left (t :: l) t.
Proof.
  intros H. exists [], l. split; auto. split; [intros q []|]. intros q Hq. rewrite forallb_forall in H.
  apply H in Hq. destruct (dlt (coord_sum q) (coord_sum t)); auto; discriminate.
Qed.

Lemma to_list_hd {A} (b : buf A) x m : to_list b = x :: m -> x = bget b 0.
Proof. unfold to_list. destruct (Z.to_nat (blen b)); [discriminate|]. intros E. injection E as <- _. reflexivity. Qed.
Lemma nth_map0 {A B} (f : option A -> option B) l x : (forall y m, l = y :: m -> y = x) -> l <> [] -> nth 0 (map f l) None = f x.
Proof. destruct l as [|y m]; [congruence|]. intros H _. cbn. rewrite (H y m eq_refl). reflexivity. Qed.
Definition near_diag : list (f64 * f64) := map zpt [(0, 0); (1, 1); (10, 2); (2, 10)].
Lemma first_fails : exists at2 w h ow oh s q l r c s' t i b',
  atan2_ok at2 /\ wf s /\ holds_points s q l /\ length l = 4%nat /\ (forall p, In p l -> tame p) /\ top_left l t /\
  r = Ptr i /\ sort_corners at2 3 w h ow oh q 4 r s = Ok (c, s') /\ mem s' i = Some (OPts b') /\
  bget b' 0 <> Some t /\ tl c <> t.
Proof.
  assert (O : out_points (sort_corners diag_atan2 3 11 11 11 11 (Ptr 0) 4 (Ptr 1) (stp near_diag 4)) =
    Some [Some (1, 1); Some (0, 0); Some (10, 2); Some (2, 10)]) by (vm_compute; reflexivity).
  assert (O2 : out_corners (sort_corners diag_atan2 3 11 11 11 11 (Ptr 0) 4 (Ptr 1) (stp near_diag 4)) =
    [(1, 1); (0, 0); (10, 2); (2, 10)]) by (vm_compute; reflexivity).
  destruct (sort_corners_ok diag_atan2 3 11 11 11 11 (stp near_diag 4) (Ptr 0) near_diag (Ptr 1) (bnew 4))
    as (c & s' & E & _ & H).
  - apply diag_ok.
  - lia.
  - apply wf_stp.
  - apply holds_stp.
  - cbn; lia.
  - exists 1; auto.
  - cbn; lia.
  - change (Z.of_nat (length near_diag)) with 4 in E. rewrite E in O, O2.
    destruct H as [(_ & (n & _ & N) & _)|(i & b & b' & l' & Er & _ & M & _)]; [discriminate|].
    injection Er as <-. cbn [out_points] in O. rewrite M in O.
    exists diag_atan2, 11, 11, 11, 11, (stp near_diag 4), (Ptr 0), near_diag, (Ptr 1), c, s', (zpt (0, 0)), 1, b'.
    split; [apply diag_ok|]. split; [apply wf_stp|]. split; [apply holds_stp|]. split; [reflexivity|]. split.
    { intros p Hp. unfold near_diag in Hp. apply in_map_iff in Hp. destruct Hp as (z & <- & Hz). apply tame_zpt;
      destruct Hz as [<-|[<-|[<-|[<-|[]]]]]; unfold sm; cbn; lia. }
    split; [apply top_left_first; vm_compute; reflexivity|]. split; [reflexivity|]. split; [exact E|]. split; [exact M|].
    split.
    + intros G. apply (f_equal (fun o => match o with Some l => nth 0 l None | None => None end)) in O. cbv beta iota in O.
      rewrite (nth_map0 (option_map (fun p => (Btrunc (fst p), Btrunc (snd p)))) (to_list b') (Some (zpt (0, 0)))) in O.
      * vm_compute in O. discriminate O.
      * intros x m Hl. rewrite (to_list_hd _ _ _ Hl). exact G.
      * intros Hl. rewrite Hl in O. vm_compute in O. discriminate O.
    + intros G. apply (f_equal (fun l => nth 0 l (0, 0))) in O2. cbn [out_corners map nth] in O2. rewrite G in O2. vm_compute in O2. discriminate O2.
Qed.
