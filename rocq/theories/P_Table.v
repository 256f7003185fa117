(** * Proofs about the table of operations *)
From Coq Require Import String.
From Verif Require Import Base BaseLemmas F Heap M_Color M_Parse M_Table Spec_Parse Spec_Table P_Parse.
Local Open Scope string_scope.
Local Open Scope list_scope.
Local Open Scope Z_scope.

Definition len {A} (l : list A) : Z := Z.of_nat (length l).
Definition TWO30 : Z := 1073741824.

(** The pipeline [p] of state [s] holds [l]; the other blocks are those of [m0]. *)
Definition tab (m0 : Z -> option tobj) (s : tst) (p : ptr) (l : list pipeline_op) : Prop :=
  exists i j b cap, p = Ptr i /\ i <> j /\
  (forall x, tmem s x = if x =? i then Some (TPipe (Ptr j) (len l) cap)
                        else if x =? j then Some (TOps b) else m0 x) /\
  m0 i = None /\ m0 j = None /\ i < tnxt s /\ j < tnxt s /\
  (forall x, tnxt s <= x -> m0 x = None) /\
  blen b = cap /\ 0 < cap /\ len l <= cap /\
  (forall n, (n < length l)%nat -> bget b (Z.of_nat n) = nth_error l n) /\
  (forall n, torc s n = true).

Lemma tab_ext m0 m1 s p l : tab m0 s p l -> (forall x, m1 x = m0 x) -> tab m1 s p l.
Proof.
  intros (i & j & b & cap & -> & Hij & Hm & Hi & Hj & Li & Lj & Hf & Hb & Hc & Hl & Hg & Ho) E.
  exists i, j, b, cap. rewrite !E. repeat (split; [assumption || reflexivity || lia|]).
  split. { intros x. rewrite Hm, E. reflexivity. }
  repeat (split; [assumption|]). split. { intros x Hx. rewrite E. auto. }
  repeat (split; [assumption || lia|]). assumption.
Qed.

Lemma tab_create s : (forall n, torc s n = true) -> (forall x, tnxt s <= x -> tmem s x = None) ->
  exists p s', create_pipeline s = Ok (p, s') /\ tab (tmem s) s' p [].
Proof.
  intros Ho Hf. unfold create_pipeline, bindT, talloc, tput, tret. rewrite Ho. cbn [tmem tnxt torc ttick].
  unfold upd at 1. rewrite Z.eqb_refl. cbn [tmem tnxt torc ttick]. rewrite Ho. cbn [tmem tnxt torc ttick].
  unfold upd at 1. replace (tnxt s =? tnxt s + 1) with false by lia. unfold upd at 1. rewrite Z.eqb_refl.
  do 2 eexists. split; [reflexivity|].
  exists (tnxt s), (tnxt s + 1), (bnew 8), 8. cbn [tmem tnxt torc ttick].
  repeat (split; [reflexivity || lia|]).
  split. { intros x. unfold upd. destruct (Z.eqb_spec x (tnxt s)); [reflexivity|].
           destruct (x =? tnxt s + 1); reflexivity. }
  split; [apply Hf; lia|]. split; [apply Hf; lia|]. split; [lia|]. split; [lia|].
  split. { intros x Hx. apply Hf. lia. }
  split; [reflexivity|]. split; [lia|]. split; [cbn; lia|].
  split; [intros n Hn; cbn in Hn; lia|assumption].
Qed.

Lemma tab_free m0 s p l : tab m0 s p l ->
  exists s', free_pipeline p s = Ok (tt, s') /\ forall x, tmem s' x = m0 x.
Proof.
  intros (i & j & b & cap & -> & Hij & Hm & Hi & Hj & Li & Lj & Hf & Hb & Hc & Hl & Hg & Ho).
  unfold free_pipeline, get_pipe, tget, tfree, bindT, tret. cbn [is_null].
  rewrite (Hm i), Z.eqb_refl. rewrite (Hm j). replace (j =? i) with false by lia. rewrite Z.eqb_refl.
  cbn [tmem]. unfold upd at 1. replace (i =? j) with false by lia. rewrite (Hm i), Z.eqb_refl.
  eexists. split; [reflexivity|]. intros x. cbn [tmem]. unfold upd. rewrite Hm.
  destruct (Z.eqb_spec x i) as [->|]; [auto|]. destruct (Z.eqb_spec x j) as [->|]; auto.
Qed.

Lemma len_snoc {A} (l : list A) a : len (l ++ [a]) = len l + 1.
Proof. unfold len. rewrite app_length. cbn [length]. lia. Qed.

Lemma ck32_in x : INT_MIN <= x <= INT_MAX -> ck32 x = Ok x.
Proof. intros H. unfold ck32. destruct (_ && _) eqn:E; [reflexivity|]. exfalso. revert E. unfold INT_MIN, INT_MAX in *. lia. Qed.

Lemma tab_add m0 s p l o : tab m0 s p l -> len l < TWO30 ->
  exists s', add_operation p o s = Ok (tt, s') /\ tab m0 s' p (l ++ [o]).
Proof.
  intros (i & j & b & cap & -> & Hij & Hm & Hi & Hj & Li & Lj & Hf & Hb & Hc & Hl & Hg & Ho) H30.
  assert (Hl0 : 0 <= len l) by (unfold len; lia).
  assert (CK : ck32 (len l + 1) = Ok (len l + 1)) by (apply ck32_in; unfold INT_MIN, INT_MAX, TWO30 in *; lia).
  unfold add_operation, get_pipe, bindT, tret at 1, tget at 1. rewrite (Hm i), Z.eqb_refl. cbv beta iota.
  destruct (cap <=? len l) eqn:E.
  - (* grow *)
    apply Z.leb_le in E. assert (cap = len l) by lia.
    rewrite (ck32_in (cap * 2)) by (unfold INT_MIN, INT_MAX, TWO30 in *; lia).
    unfold tlift at 1. unfold realloc_ops, get_ops, bindT, tget at 1.
    rewrite (Hm j). replace (j =? i) with false by lia. rewrite Z.eqb_refl. unfold tret at 1.
    unfold talloc. rewrite Ho. cbn [tmem tnxt torc ttick is_null].
    unfold tfree. cbn [tmem tnxt torc ttick]. unfold upd at 1. replace (j =? tnxt s) with false by lia.
    rewrite (Hm j). replace (j =? i) with false by lia. rewrite Z.eqb_refl. unfold tret.
    unfold tget. cbn [tmem tnxt torc ttick]. unfold upd at 1. replace (tnxt s =? j) with false by lia.
    unfold upd at 1. rewrite Z.eqb_refl. unfold tlift at 1. unfold store, inb. cbn [blen].
    replace ((0 <=? len l) && (len l <? cap * 2)) with true by lia.
    unfold tput at 1. cbn [tmem tnxt torc ttick]. unfold upd at 1. replace (tnxt s =? j) with false by lia.
    unfold upd at 1. rewrite Z.eqb_refl. unfold tlift. rewrite CK. unfold tput. cbn [tmem tnxt torc ttick].
    unfold upd at 1. replace (i =? tnxt s) with false by lia. unfold upd at 1. replace (i =? j) with false by lia.
    unfold upd at 1. replace (i =? tnxt s) with false by lia. rewrite (Hm i), Z.eqb_refl.
    eexists. split; [reflexivity|].
    match goal with |- tab _ (mktst (upd (upd _ _ (Some (TOps ?B))) _ _) _ _ _) _ _ => exists i, (tnxt s), B, (cap * 2) end.
    cbn [tmem tnxt torc ttick].
    split; [reflexivity|]. split; [lia|].
    split. { intros x. unfold upd. rewrite len_snoc. destruct (Z.eqb_spec x i); [reflexivity|].
             destruct (Z.eqb_spec x (tnxt s)); [reflexivity|]. destruct (Z.eqb_spec x j) as [->|]; [auto|].
             rewrite Hm. replace (x =? i) with false by lia. replace (x =? j) with false by lia. reflexivity. }
    split; [assumption|]. split; [apply Hf; lia|]. split; [lia|]. split; [lia|].
    split. { intros x Hx. apply Hf. lia. }
    split; [reflexivity|]. split; [lia|]. split; [rewrite len_snoc; lia|].
    split; [|assumption]. intros n Hn. cbn [bget bset blen]. rewrite app_length in Hn. cbn [length] in Hn.
    destruct (Nat.eq_dec n (length l)) as [->|Hne].
    + unfold len. rewrite Z.eqb_refl, nth_error_app2, Nat.sub_diag by lia. reflexivity.
    + replace (Z.of_nat n =? len l) with false by (unfold len; lia).
      replace (Z.of_nat n <? Z.min (cap * 2) (blen b)) with true by (unfold len in *; lia).
      rewrite nth_error_app1 by lia. apply Hg. lia.
  - apply Z.leb_gt in E. unfold tret at 1, get_ops, bindT, tget at 1.
    rewrite (Hm j). replace (j =? i) with false by lia. rewrite Z.eqb_refl. unfold tret.
    unfold tlift at 1. unfold store, inb. rewrite Hb.
    replace ((0 <=? len l) && (len l <? cap)) with true by lia.
    unfold tput at 1. rewrite (Hm j). replace (j =? i) with false by lia. rewrite Z.eqb_refl.
    unfold tlift. rewrite CK. unfold tput. cbn [tmem tnxt torc ttick]. unfold upd at 1.
    replace (i =? j) with false by lia. rewrite (Hm i), Z.eqb_refl.
    eexists. split; [reflexivity|].
    exists i, j, (bset b (len l) o), cap. cbn [tmem tnxt torc ttick].
    split; [reflexivity|]. split; [lia|].
    split. { intros x. unfold upd. rewrite len_snoc. destruct (Z.eqb_spec x i); [reflexivity|].
             destruct (Z.eqb_spec x j); [reflexivity|].
             rewrite Hm. replace (x =? i) with false by lia. replace (x =? j) with false by lia. reflexivity. }
    repeat (split; [assumption || lia|]).
    split; [rewrite len_snoc; lia|].
    split; [|assumption]. intros n Hn. cbn [bget bset]. rewrite app_length in Hn. cbn [length] in Hn.
    destruct (Nat.eq_dec n (length l)) as [->|Hne].
    + unfold len. rewrite Z.eqb_refl, nth_error_app2, Nat.sub_diag by lia. reflexivity.
    + replace (Z.of_nat n =? len l) with false by (unfold len; lia).
      rewrite nth_error_app1 by lia. apply Hg. lia.
Qed.

(** Blocks other than the table *)
Lemma tab_alloc m0 s p l o : tab m0 s p l ->
  exists c s', talloc o s = Ok (Ptr c, s') /\ m0 c = None /\ tmem s' c = Some o /\ tab (upd m0 c (Some o)) s' p l.
Proof.
  intros (i & j & b & cap & -> & Hij & Hm & Hi & Hj & Li & Lj & Hf & Hb & Hc & Hl & Hg & Ho).
  unfold talloc. rewrite Ho. exists (tnxt s). eexists. split; [reflexivity|]. split; [apply Hf; lia|].
  cbn [tmem tnxt torc ttick]. split; [unfold upd; rewrite Z.eqb_refl; reflexivity|].
  exists i, j, b, cap. cbn [tmem tnxt torc ttick]. repeat (split; [assumption || reflexivity|]).
  split. { intros x. unfold upd. rewrite Hm. destruct (Z.eqb_spec x (tnxt s)) as [->|]; [|reflexivity].
           replace (tnxt s =? i) with false by lia. replace (tnxt s =? j) with false by lia. reflexivity. }
  unfold upd. split; [replace (i =? tnxt s) with false by lia; assumption|].
  split; [replace (j =? tnxt s) with false by lia; assumption|]. split; [lia|]. split; [lia|].
  split. { intros x Hx. replace (x =? tnxt s) with false by lia. apply Hf. lia. }
  repeat (split; [assumption|]). assumption.
Qed.
Lemma tab_other m0 s p l c o : tab m0 s p l -> m0 c = Some o -> tmem s c = Some o.
Proof.
  intros (i & j & b & cap & -> & Hij & Hm & Hi & Hj & _) H. rewrite Hm.
  destruct (Z.eqb_spec c i); [congruence|]. destruct (Z.eqb_spec c j); [congruence|assumption].
Qed.
Lemma tab_tfree m0 s p l c o : tab m0 s p l -> m0 c = Some o ->
  exists s', tfree (Ptr c) s = Ok (tt, s') /\ tab (upd m0 c None) s' p l.
Proof.
  intros Ht H. pose proof (tab_other _ _ _ _ _ _ Ht H) as E.
  destruct Ht as (i & j & b & cap & -> & Hij & Hm & Hi & Hj & Li & Lj & Hf & Hb & Hc & Hl & Hg & Ho).
  unfold tfree. rewrite E. eexists. split; [reflexivity|].
  exists i, j, b, cap. cbn [tmem tnxt torc ttick]. repeat (split; [assumption || reflexivity|]).
  assert (c <> i) by congruence. assert (c <> j) by congruence.
  split. { intros x. unfold upd. rewrite Hm. destruct (Z.eqb_spec x c) as [->|]; [|reflexivity].
           replace (c =? i) with false by lia. replace (c =? j) with false by lia. reflexivity. }
  unfold upd. split; [destruct (i =? c); auto|]. split; [destruct (j =? c); auto|]. split; [lia|]. split; [lia|].
  split. { intros x Hx. destruct (x =? c); auto. }
  repeat (split; [assumption|]). assumption.
Qed.
Lemma tab_put m0 s p l c o o' : tab m0 s p l -> m0 c = Some o ->
  exists s', tput (Ptr c) o' s = Ok (tt, s') /\ tab (upd m0 c (Some o')) s' p l.
Proof.
  intros Ht H. pose proof (tab_other _ _ _ _ _ _ Ht H) as E.
  destruct Ht as (i & j & b & cap & -> & Hij & Hm & Hi & Hj & Li & Lj & Hf & Hb & Hc & Hl & Hg & Ho).
  unfold tput. rewrite E. eexists. split; [reflexivity|].
  exists i, j, b, cap. cbn [tmem tnxt torc ttick]. repeat (split; [assumption || reflexivity|]).
  assert (c <> i) by congruence. assert (c <> j) by congruence.
  assert (~ tnxt s <= c) by (intros L; apply Hf in L; congruence).
  split. { intros x. unfold upd. rewrite Hm. destruct (Z.eqb_spec x c) as [->|]; [|reflexivity].
           replace (c =? i) with false by lia. replace (c =? j) with false by lia. reflexivity. }
  unfold upd. split; [replace (i =? c) with false by lia; auto|]. split; [replace (j =? c) with false by lia; auto|]. split; [lia|]. split; [lia|].
  split. { intros x Hx. replace (x =? c) with false by lia. auto. }
  repeat (split; [assumption|]). assumption.
Qed.
Lemma upd_back m0 c (o : tobj) : m0 c = None -> forall x, m0 x = upd (upd m0 c (Some o)) c None x.
Proof. intros H x. unfold upd. destruct (Z.eqb_spec x c) as [->|]; auto. Qed.

Section tables.
Variables (atof : cstr -> f64) (atoi : cstr -> Z) (show2 : f64 -> f64 -> cstr).

(** What adding a piece with parsed entry [r] does *)
Definition adds (m : T bool) (r : option (list pipeline_op)) (m0 : Z -> option tobj) (s : tst) (p : ptr) (l : list pipeline_op) : Prop :=
  match r with
  | Some l' => exists s', m s = Ok (true, s') /\ tab m0 s' p (l ++ l')
  | None => exists s', m s = Ok (false, s') /\ tab m0 s' p l
  end.

Ltac go E := unfold bindT at 1; rewrite E; cbv beta iota.

Lemma add_one m0 s p l o : tab m0 s p l -> len l < TWO30 ->
  adds (_ <~ add_operation p o ;; tret true) (Some [o]) m0 s p l.
Proof.
  intros Ht H. destruct (tab_add _ _ _ _ o Ht H) as (s' & E & Ht'). exists s'. split; [|assumption].
  go E. reflexivity.
Qed.

Lemma add_shape_ok m0 s p l piece prm : tab m0 s p l -> len l < TWO30 ->
  adds (add_shape atof show2 p piece prm)
       (match shape_op atof show2 piece prm with Some o => Some [o] | None => None end) m0 s p l.
Proof.
  intros Ht H. unfold add_shape, shape_op.
  destruct (strchr 32 prm) as [[a b]|]; [|exists s; split; [reflexivity|assumption]].
  destruct (strchr 32 (trim_whitespace b)) as [[a' b']|]; [|exists s; split; [reflexivity|assumption]].
  cbv zeta. unfold strdup.
  destruct (tab_alloc _ _ _ _ (TStr (trim_whitespace b')) Ht) as (c & s1 & E1 & Hc & Ec & T1).
  assert (G : get_str (Ptr c) s1 = Ok (trim_whitespace b', s1)).
  { unfold get_str, bindT, tget. rewrite Ec. reflexivity. }
  assert (U : upd m0 c (Some (TStr (trim_whitespace b'))) c = Some (TStr (trim_whitespace b'))) by (unfold upd; rewrite Z.eqb_refl; reflexivity).
  destruct (strchr 120 (trim_whitespace b')) as [[x y]|] eqn:EX.
  - match goal with |- context [Some [?O]] => destruct (tab_add _ _ _ _ O T1 H) as (s2 & E2 & T2) end.
    destruct (tab_tfree _ _ _ _ _ _ T2 U) as (s3 & E3 & T3).
    exists s3. split.
    + go E1. go G. rewrite EX. go E2. go E3. reflexivity.
    + eapply tab_ext; [exact T3|]. apply upd_back. assumption.
  - destruct (tab_tfree _ _ _ _ _ _ T1 U) as (s3 & E3 & T3).
    exists s3. split.
    + go E1. go G. rewrite EX. go E3. reflexivity.
    + eapply tab_ext; [exact T3|]. apply upd_back. assumption.
Qed.

Definition extract_to_op (piece prm : cstr) : option pipeline_op :=
  match strchr 120 prm with
  | Some (a, b) =>
      let out_width := u32 (atoi (trim_whitespace a)) in
      let out_height := u32 (atoi (trim_whitespace b)) in
      if (0 <? out_width) && (0 <? out_height)
      then Some (new_op piece (Some (d_of_Z out_width)) (Some (d_of_Z out_height)) None None None)
      else None
  | None => None
  end.

Lemma add_extract_to_ok m0 s p l piece prm : tab m0 s p l -> len l < TWO30 ->
  adds (add_extract_to atoi p piece prm)
       (match extract_to_op piece prm with Some o => Some [o] | None => None end) m0 s p l.
Proof.
  intros Ht H. unfold add_extract_to, extract_to_op, strdup.
  destruct (tab_alloc _ _ _ _ (TStr prm) Ht) as (c & s1 & E1 & Hc & Ec & T1).
  assert (G : get_str (Ptr c) s1 = Ok (prm, s1)).
  { unfold get_str, bindT, tget. rewrite Ec. reflexivity. }
  assert (U : upd m0 c (Some (TStr prm)) c = Some (TStr prm)) by (unfold upd; rewrite Z.eqb_refl; reflexivity).
  assert (F : exists s', tfree (Ptr c) s1 = Ok (tt, s') /\ tab m0 s' p l).
  { destruct (tab_tfree _ _ _ _ _ _ T1 U) as (s3 & E3 & T3). exists s3. split; [assumption|].
    eapply tab_ext; [exact T3|]. apply upd_back. assumption. }
  destruct F as (s3 & E3 & T3).
  destruct (strchr 120 prm) as [[x y]|] eqn:EX.
  2:{ exists s3. split; [|assumption]. go E1. go G. rewrite EX. go E3. reflexivity. }
  cbv zeta. destruct (_ && _) eqn:EW.
  2:{ exists s3. split; [|assumption]. go E1. go G. rewrite EX. cbv zeta. rewrite EW. go E3. reflexivity. }
  match goal with |- context [Some [?O]] => destruct (tab_add _ _ _ _ O T1 H) as (s4 & E4 & T4) end.
  destruct (tab_tfree _ _ _ _ _ _ T4 U) as (s5 & E5 & T5).
  exists s5. split.
  + go E1. go G. rewrite EX. cbv zeta. rewrite EW. go E4. go E5. reflexivity.
  + eapply tab_ext; [exact T5|]. apply upd_back. assumption.
Qed.

Lemma streq_true a b : streq a b = true -> a = b.
Proof.
  revert b. induction a as [|x a IH]; intros [|y b]; cbn; try discriminate; auto.
  intros H. apply andb_true_iff in H. destruct H as [H1 H2]. apply Z.eqb_eq in H1. f_equal; auto.
Qed.

Lemma add_with_params_ok m0 s p l piece prm : tab m0 s p l -> len l < TWO30 ->
  adds (add_with_params atof atoi show2 p piece prm)
       (match parse_with_params atof atoi show2 piece prm with Some o => Some [o] | None => None end) m0 s p l.
Proof.
  intros Ht H. unfold add_with_params.
  destruct (streq piece s_circle) eqn:E1.
  { apply streq_true in E1. subst piece.
    change (parse_with_params atof atoi show2 s_circle prm) with (shape_op atof show2 s_circle prm). apply add_shape_ok; assumption. }
  destruct (streq piece s_disk) eqn:E2.
  { apply streq_true in E2. subst piece.
    change (parse_with_params atof atoi show2 s_disk prm) with (shape_op atof show2 s_disk prm). apply add_shape_ok; assumption. }
  destruct (streq piece s_extract_document_to) eqn:E3.
  { apply streq_true in E3. subst piece.
    change (parse_with_params atof atoi show2 s_extract_document_to prm) with (extract_to_op s_extract_document_to prm).
    apply add_extract_to_ok; assumption. }
  destruct (parse_with_params atof atoi show2 piece prm) as [o|].
  - apply add_one; assumption.
  - exists s. split; [reflexivity|assumption].
Qed.

Lemma add_piece_ok m0 s p l t : tab m0 s p l -> len l < TWO30 ->
  adds (add_piece atof atoi show2 p t) (parse_piece atof atoi show2 t) m0 s p l.
Proof.
  intros Ht H. unfold add_piece, parse_piece.
  assert (Z0 : adds (tret true) (Some []) m0 s p l) by (exists s; split; [reflexivity|rewrite app_nil_r; assumption]).
  destruct (trim_whitespace t) as [|z0 r0]; [exact Z0|]. cbv zeta.
  destruct (strip_parens (z0 :: r0)) as [|z r]; [exact Z0|].
  destruct (strchr 32 (z :: r)) as [[nm rest]|].
  - pose proof (add_with_params_ok m0 s p l nm (trim_whitespace rest) Ht H) as A.
    destruct (parse_with_params atof atoi show2 nm (trim_whitespace rest)); exact A.
  - apply add_one; assumption.
Qed.

Lemma parse_piece_len t l : parse_piece atof atoi show2 t = Some l -> len l <= 1.
Proof.
  unfold parse_piece. destruct (trim_whitespace t) as [|z0 r0]; [intros [= <-]; cbn; lia|]. cbv zeta.
  destruct (strip_parens (z0 :: r0)) as [|z r]; [intros [= <-]; cbn; lia|].
  destruct (strchr 32 (z :: r)) as [[nm rest]|]; [|intros [= <-]; cbn; lia].
  destruct (parse_with_params atof atoi show2 nm (trim_whitespace rest)); intros [= <-]; cbn; lia.
Qed.

Lemma add_pieces_ok m0 p ts : forall s l, tab m0 s p l -> len l + len ts <= TWO30 ->
  match parse_tokens atof atoi show2 ts l with
  | Some r => exists s', add_pieces atof atoi show2 p ts s = Ok (true, s') /\ tab m0 s' p r
  | None => exists s' l', add_pieces atof atoi show2 p ts s = Ok (false, s') /\ tab m0 s' p l'
  end.
Proof.
  induction ts as [|t ts IH]; intros s l Ht H.
  - cbn. exists s. split; [reflexivity|assumption].
  - cbn [parse_tokens add_pieces]. assert (0 <= len l) by (unfold len; lia).
    replace (len (t :: ts)) with (1 + len ts) in H by (unfold len; cbn [length]; lia).
    assert (0 <= len ts) by (unfold len; lia).
    pose proof (add_piece_ok m0 s p l t Ht ltac:(lia)) as A.
    destruct (parse_piece atof atoi show2 t) as [l'|] eqn:EP.
    + destruct A as (s1 & E1 & T1). apply parse_piece_len in EP.
      specialize (IH s1 (l ++ l') T1).
      assert (L : len (l ++ l') + len ts <= TWO30).
      { unfold len in *. rewrite app_length. lia. }
      specialize (IH L). unfold bindT. rewrite E1. exact IH.
    + destruct A as (s1 & E1 & T1). exists s1, l. split; [|assumption]. unfold bindT. rewrite E1. reflexivity.
Qed.

Lemma tokens_len s : forall cur, len (tokens cur s) <= len cur + len s.
Proof.
  induction s as [|c s IH]; intros cur; cbn [tokens].
  - destruct cur; unfold len; cbn [length]; lia.
  - destruct (c =? 44).
    + specialize (IH []). destruct cur; unfold len in *; cbn [length] in *; lia.
    + specialize (IH (c :: cur)). unfold len in *; cbn [length] in *; lia.
Qed.

Lemma spaced_len args : len (spaced args) <= args_size args.
Proof.
  destruct args as [|a r]; [cbn; lia|].
  pose proof (size_spaced (a :: r)). pose proof (args_size_cons (spaced (a :: r)) []).
  change (args_size []) with 0 in *. unfold P_Parse.len, len in *. lia.
Qed.

Lemma parse_into_ok m0 s p args : tab m0 s p [] -> args_size args <= TWO30 ->
  match parse_string atof atoi show2 (spaced args) with
  | Some r => exists s', parse_into atof atoi show2 p args s = Ok (true, s') /\ tab m0 s' p r
  | None => exists s' l', parse_into atof atoi show2 p args s = Ok (false, s') /\ tab m0 s' p l'
  end.
Proof.
  intros Ht H. pose proof (args_size_nonneg args) as H0. unfold parse_into.
  destruct (tab_alloc _ _ _ _ (TStr []) Ht) as (c & s1 & E1 & Hc & Ec & T1).
  rewrite total_len_ok by (unfold U64, TWO30 in *; lia). cbv zeta. rewrite u64_small by (unfold U64, TWO30 in *; lia).
  assert (U : upd m0 c (Some (TStr [])) c = Some (TStr [])) by (unfold upd; rewrite Z.eqb_refl; reflexivity).
  destruct (tab_put _ _ _ _ _ _ (TStr (spaced args)) T1 U) as (s2 & E2 & T2).
  assert (T2' : tab (upd m0 c (Some (TStr (spaced args)))) s2 p []).
  { eapply tab_ext; [exact T2|]. intros x. unfold upd. destruct (x =? c); reflexivity. }
  assert (U2 : upd m0 c (Some (TStr (spaced args))) c = Some (TStr (spaced args))) by (unfold upd; rewrite Z.eqb_refl; reflexivity).
  assert (L : len (@nil pipeline_op) + len (tokens [] (spaced args)) <= TWO30).
  { pose proof (tokens_len (spaced args) []). pose proof (spaced_len args). unfold len in *. cbn [length] in *. lia. }
  pose proof (add_pieces_ok _ p (tokens [] (spaced args)) s2 [] T2' L) as A. unfold parse_string.
  assert (J : join_args (0 + args_size args + 1) true args [] = Ok (spaced args)) by (apply join_ok; lia).
  assert (K : (0 + args_size args + 1 =? 0) = false) by lia.
  destruct (parse_tokens atof atoi show2 (tokens [] (spaced args)) []) as [r|].
  - destruct A as (s3 & E3 & T3). destruct (tab_tfree _ _ _ _ _ _ T3 U2) as (s4 & E4 & T4).
    exists s4. split; [|eapply tab_ext; [exact T4|apply upd_back; assumption]].
    go E1. cbn [is_null]. rewrite K, J. unfold bindT at 1, tlift. go E2. go E3. go E4. reflexivity.
  - destruct A as (s3 & l' & E3 & T3). destruct (tab_tfree _ _ _ _ _ _ T3 U2) as (s4 & E4 & T4).
    exists s4, l'. split; [|eapply tab_ext; [exact T4|apply upd_back; assumption]].
    go E1. cbn [is_null]. rewrite K, J. unfold bindT at 1, tlift. go E2. go E3. go E4. reflexivity.
Qed.

Lemma read_ops_ok b l : forall k, (forall n, (n < length l)%nat -> bget b (k + Z.of_nat n) = nth_error l n) ->
  0 <= k -> k + len l <= blen b -> read_ops b k (length l) = Ok l.
Proof.
  induction l as [|o l IH]; intros k Hg Hk Hb; [reflexivity|]. cbn [read_ops length].
  replace (len (o :: l)) with (1 + len l) in Hb by (unfold len; cbn [length]; lia).
  assert (0 <= len l) by (unfold len; lia).
  unfold load, inb. replace ((0 <=? k) && (k <? blen b)) with true by lia.
  specialize (Hg O) as H0. rewrite Z.add_0_r in H0. rewrite H0 by (cbn; lia). cbn [nth_error bind].
  rewrite IH; [reflexivity| |lia|lia].
  intros n Hn. replace (k + 1 + Z.of_nat n) with (k + Z.of_nat (S n)) by lia. rewrite Hg by (cbn; lia). reflexivity.
Qed.

Lemma read_table_ok m0 s p l : tab m0 s p l -> read_table p s = Ok (l, s).
Proof.
  intros (i & j & b & cap & -> & Hij & Hm & Hi & Hj & Li & Lj & Hf & Hb & Hc & Hl & Hg & Ho).
  unfold read_table, get_pipe, get_ops, bindT, tget, tret. rewrite (Hm i), Z.eqb_refl.
  destruct (Z.eqb_spec (len l) 0) as [E|E].
  - unfold len in E. destruct l; [reflexivity|cbn in E; lia].
  - rewrite (Hm j). replace (j =? i) with false by lia. rewrite Z.eqb_refl. unfold len. rewrite Nat2Z.id.
    rewrite read_ops_ok; [reflexivity| |lia|lia].
    intros n Hn. cbn. auto.
Qed.

Theorem table_of_ok args s : args_size args <= TWO30 ->
  (forall n, torc s n = true) -> (forall x, tnxt s <= x -> tmem s x = None) ->
  exists r s', table_of atof atoi show2 args s = Ok (r, s') /\ (forall x, tmem s' x = tmem s x) /\
    parse_pipeline atof atoi show2 true args = Ok r.
Proof.
  intros H Ho Hf. pose proof (args_size_nonneg args).
  destruct (tab_create s Ho Hf) as (p & s1 & E1 & T1).
  pose proof (parse_into_ok _ _ _ args T1 H) as A.
  rewrite (parse_ok atof atoi show2 args) by (unfold U64, TWO30 in *; lia).
  unfold table_of.
  destruct (parse_string atof atoi show2 (spaced args)) as [r|].
  - destruct A as (s2 & E2 & T2). pose proof (read_table_ok _ _ _ _ T2) as E3.
    destruct (tab_free _ _ _ _ T2) as (s3 & E4 & M). exists (Some r), s3.
    split; [|split; [assumption|reflexivity]]. go E1. go E2. go E3. go E4. reflexivity.
  - destruct A as (s2 & l' & E2 & T2).
    destruct (tab_free _ _ _ _ T2) as (s3 & E4 & M). exists None, s3.
    split; [|split; [assumption|reflexivity]]. go E1. go E2. go E4. reflexivity.
Qed.
End tables.

Lemma add_all_ok m0 p l : forall s l0, tab m0 s p l0 -> len l0 + len l <= TWO30 ->
  exists s', add_all p l s = Ok (tt, s') /\ tab m0 s' p (l0 ++ l).
Proof.
  induction l as [|o l IH]; intros s l0 Ht H.
  - exists s. rewrite app_nil_r. split; [reflexivity|assumption].
  - replace (len (o :: l)) with (1 + len l) in H by (unfold len; cbn [length]; lia).
    assert (0 <= len l) by (unfold len; lia).
    destruct (tab_add _ _ _ _ o Ht ltac:(lia)) as (s1 & E1 & T1).
    destruct (IH s1 (l0 ++ [o]) T1) as (s2 & E2 & T2); [rewrite len_snoc; lia|].
    exists s2. rewrite <- app_assoc in T2. split; [|exact T2]. cbn [add_all]. unfold bindT. rewrite E1. exact E2.
Qed.
Lemma add_all_read l s : (forall n, torc s n = true) -> (forall x, tnxt s <= x -> tmem s x = None) -> len l <= TWO30 ->
  exists p s1 s2 s3, create_pipeline s = Ok (p, s1) /\ add_all p l s1 = Ok (tt, s2) /\
    read_table p s2 = Ok (l, s2) /\ free_pipeline p s2 = Ok (tt, s3) /\ forall x, tmem s3 x = tmem s x.
Proof.
  intros Ho Hf H. destruct (tab_create s Ho Hf) as (p & s1 & E1 & T1).
  destruct (add_all_ok _ _ l _ _ T1 H) as (s2 & E2 & T2).
  destruct (tab_free _ _ _ _ T2) as (s3 & E3 & M).
  exists p, s1, s2, s3. repeat (split; [assumption|]). split; [apply (read_table_ok _ _ _ _ T2)|].
  split; assumption.
Qed.

(** ** When memory runs out *)
Lemma oom_first atof atoi show2 args s : torc s (ttick s) = false ->
  table_of atof atoi show2 args s = UB NullDeref.
Proof. intros H. unfold table_of, create_pipeline, bindT, talloc. rewrite H. reflexivity. Qed.

Lemma upd_eq (m : Z -> option tobj) i o : upd m i o i = o.
Proof. unfold upd. rewrite Z.eqb_refl. reflexivity. Qed.
Lemma upd_ne (m : Z -> option tobj) i j o : j <> i -> upd m i o j = m j.
Proof. intros H. unfold upd. replace (j =? i) with false by lia. reflexivity. Qed.
Lemma oom_joined atof atoi show2 args s : (forall n, torc s n = true <-> n <> (2 + ttick s)%nat) ->
  (forall x, tnxt s <= x -> tmem s x = None) ->
  exists s', table_of atof atoi show2 args s = Ok (None, s') /\ forall x, tmem s' x = tmem s x.
Proof.
  intros Ho Hf. unfold table_of, create_pipeline, bindT, talloc, tput, tret.
  rewrite (proj2 (Ho (ttick s))) by lia. cbn [tmem tnxt torc ttick].
  unfold upd at 1. rewrite Z.eqb_refl. cbn [tmem tnxt torc ttick].
  rewrite (proj2 (Ho (S (ttick s)))) by lia. cbn [tmem tnxt torc ttick].
  unfold upd at 1. replace (tnxt s =? tnxt s + 1) with false by lia. unfold upd at 1. rewrite Z.eqb_refl.
  unfold parse_into, bindT, talloc at 1. cbn [tmem tnxt torc ttick].
  destruct (torc s (S (S (ttick s)))) eqn:E.
  { exfalso. apply (proj1 (Ho (S (S (ttick s))))) in E. lia. }
  cbn [is_null]. unfold tret. unfold free_pipeline, get_pipe, tget, tfree, bindT, tret.
  cbn [is_null tmem]. rewrite upd_eq. cbn [tmem tnxt torc ttick].
  rewrite upd_ne, upd_eq by lia. cbn [tmem tnxt torc ttick].
  rewrite upd_ne, upd_eq by lia. eexists. split; [reflexivity|]. intros x. cbn [tmem]. unfold upd.
  destruct (Z.eqb_spec x (tnxt s)) as [->|]; [symmetry; apply Hf; lia|].
  destruct (Z.eqb_spec x (tnxt s + 1)) as [->|]; [symmetry; apply Hf; lia|reflexivity].
Qed.

Lemma oom_table atof atoi show2 : table_of atof atoi show2 [txt "sobel"] (st_fail 1) = UB NullDeref.
Proof. vm_compute. reflexivity. Qed.
Lemma oom_ninth atof atoi show2 : table_of atof atoi show2 [txt "sobel,sobel,sobel,sobel,sobel,sobel,sobel,sobel,sobel"] (st_fail 3) = UB NullDeref.
Proof. vm_compute. reflexivity. Qed.
Lemma oom_strdup atof atoi show2 : table_of atof atoi show2 [txt "circle #ff0000 3 4x5"] (st_fail 3) = UB NullDeref.
Proof. vm_compute. reflexivity. Qed.
