(** * Reasoning rules for [Base.v]. *)
From Verif Require Import Base.

Lemma bind_ok {A B} (r : res A) (k : A -> res B) b :
  bind r k = Ok b -> exists a, r = Ok a /\ k a = Ok b.
Proof. destruct r; simpl; intros; try discriminate; eauto. Qed.

Lemma bind_Ok {A B} (a : A) (k : A -> res B) : bind (Ok a) k = k a.
Proof. reflexivity. Qed.

Lemma bind_assoc {A B C} (r : res A) (k : A -> res B) (l : B -> res C) :
  bind (bind r k) l = bind r (fun a => bind (k a) l).
Proof. destruct r; reflexivity. Qed.

(** ** Integers *)

Lemma u8_small x : 0 <= x < 256 -> u8 x = x.
Proof. intros; unfold u8, U8; apply Z.mod_small; lia. Qed.
Lemma u32_small x : 0 <= x < 4294967296 -> u32 x = x.
Proof. intros; unfold u32, U32; apply Z.mod_small; lia. Qed.
Lemma u64_small x : 0 <= x < 18446744073709551616 -> u64 x = x.
Proof. intros; unfold u64, U64; apply Z.mod_small; lia. Qed.
Lemma u32_range x : 0 <= u32 x < 4294967296.
Proof. unfold u32, U32; apply Z.mod_pos_bound; lia. Qed.
Lemma u64_range x : 0 <= u64 x < 18446744073709551616.
Proof. unfold u64, U64; apply Z.mod_pos_bound; lia. Qed.
Lemma u8_range x : 0 <= u8 x < 256.
Proof. unfold u8, U8; apply Z.mod_pos_bound; lia. Qed.
Lemma s32_small x : INT_MIN <= x <= INT_MAX -> s32 x = x.
Proof. unfold s32, U32, INT_MIN, INT_MAX; intros; rewrite Z.mod_small; lia. Qed.
Lemma s32_range x : INT_MIN <= s32 x <= INT_MAX.
Proof. unfold s32, U32, INT_MIN, INT_MAX. pose proof (Z.mod_pos_bound (x + 2147483648) 4294967296). lia. Qed.
Lemma ck32_ok x : INT_MIN <= x <= INT_MAX -> ck32 x = Ok x.
Proof.
  unfold ck32; intros [H1 H2]. apply Z.leb_le in H1; apply Z.leb_le in H2.
  now rewrite H1, H2.
Qed.
Lemma ck32_inv x y : ck32 x = Ok y -> y = x /\ INT_MIN <= x <= INT_MAX.
Proof.
  unfold ck32; destruct ((INT_MIN <=? x) && (x <=? INT_MAX)) eqn:E; intros H; inversion H.
  apply andb_true_iff in E as [E1 E2]. apply Z.leb_le in E1; apply Z.leb_le in E2. subst; auto.
Qed.

(** ** Buffers *)

Lemma inb_true {A} (b : buf A) i : 0 <= i < blen b -> inb b i = true.
Proof. unfold inb; intros; lia. Qed.
Lemma inb_iff {A} (b : buf A) i : inb b i = true <-> 0 <= i < blen b.
Proof. unfold inb; lia. Qed.

Lemma load_ok {A} (b : buf A) i v : 0 <= i < blen b -> bget b i = Some v -> load b i = Ok v.
Proof. intros H E; unfold load. now rewrite (inb_true _ _ H), E. Qed.
Lemma load_inv {A} (b : buf A) i v : load b i = Ok v -> 0 <= i < blen b /\ bget b i = Some v.
Proof.
  unfold load; destruct (inb b i) eqn:E; [|discriminate].
  destruct (bget b i) eqn:G; [|discriminate].
  intros H; inversion H; subst; split; auto. now apply inb_iff.
Qed.
Lemma store_ok {A} (b : buf A) i v : 0 <= i < blen b -> store b i v = Ok (bset b i v).
Proof. intros H; unfold store. now rewrite (inb_true _ _ H). Qed.
Lemma store_inv {A} (b : buf A) i v b' :
  store b i v = Ok b' -> 0 <= i < blen b /\ b' = bset b i v.
Proof.
  unfold store; destruct (inb b i) eqn:E; [|discriminate].
  intros H; inversion H; subst; split; auto. now apply inb_iff.
Qed.
Lemma blen_bset {A} (b : buf A) i v : blen (bset b i v) = blen b.
Proof. reflexivity. Qed.
Lemma bget_bset {A} (b : buf A) i v j :
  bget (bset b i v) j = if j =? i then Some v else bget b j.
Proof. reflexivity. Qed.
Lemma bget_bset_same {A} (b : buf A) i v : bget (bset b i v) i = Some v.
Proof. simpl; now rewrite Z.eqb_refl. Qed.
Lemma bget_bset_other {A} (b : buf A) i v j : j <> i -> bget (bset b i v) j = bget b j.
Proof. simpl; intros H. apply Z.eqb_neq in H. now rewrite H. Qed.

Lemma bcopy_ok {A} (dst : buf A) d src s n :
  0 <= d -> 0 <= s -> 0 <= n -> d + n <= blen dst -> s + n <= blen src ->
  exists b, bcopy dst d src s n = Ok b /\ blen b = blen dst /\
    forall j, bget b j = if (d <=? j) && (j <? d + n) then bget src (j - d + s) else bget dst j.
Proof.
  intros. unfold bcopy. destruct (n =? 0) eqn:E.
  - exists dst; repeat split; auto. intros j.
    destruct ((d <=? j) && (j <? d + n)) eqn:E2; auto. lia.
  - replace ((0 <=? d) && (0 <=? s) && (d + n <=? blen dst) && (s + n <=? blen src) && (0 <=? n))
      with true by lia.
    eexists; repeat split.
Qed.

(** ** Loops *)

Lemma iter_n_inv {S} (P : Z -> S -> Prop) body n : forall lo s,
  P lo s ->
  (forall i s, lo <= i < lo + Z.of_nat n -> P i s -> exists s', body i s = Ok s' /\ P (i + 1) s') ->
  exists s', iter_n n lo body s = Ok s' /\ P (lo + Z.of_nat n) s'.
Proof.
  induction n as [|n IH]; intros lo s H0 Hs.
  - exists s; split; auto. now rewrite Z.add_0_r.
  - destruct (Hs lo s) as [s1 [E1 H1]]; [lia|assumption|].
    simpl iter_n. rewrite E1. simpl bind.
    destruct (IH (lo + 1) s1 H1) as [s2 [E2 H2]].
    + intros; apply Hs; auto; lia.
    + exists s2; split; auto. replace (lo + Z.of_nat (Datatypes.S n)) with (lo + 1 + Z.of_nat n) by lia. assumption.
Qed.

Lemma for_inv {S} (P : Z -> S -> Prop) lo hi body s :
  lo <= hi -> P lo s ->
  (forall i s, lo <= i < hi -> P i s -> exists s', body i s = Ok s' /\ P (i + 1) s') ->
  exists s', for_ lo hi body s = Ok s' /\ P hi s'.
Proof.
  intros Hle H0 Hs. unfold for_.
  destruct (iter_n_inv P body (Z.to_nat (hi - lo)) lo s H0) as [s' [E H]].
  - intros; apply Hs; auto; lia.
  - exists s'; split; auto. now replace (lo + Z.of_nat (Z.to_nat (hi - lo))) with hi in H by lia.
Qed.

Lemma for_empty {S} lo hi (body : Z -> S -> res S) s : hi <= lo -> for_ lo hi body s = Ok s.
Proof. intros; unfold for_. replace (Z.to_nat (hi - lo)) with 0%nat by lia. reflexivity. Qed.

Lemma for_step {S} lo hi (body : Z -> S -> res S) s :
  lo < hi -> for_ lo hi body s = bind (body lo s) (for_ (lo + 1) hi body).
Proof.
  intros; unfold for_. replace (Z.to_nat (hi - lo)) with (Datatypes.S (Z.to_nat (hi - (lo + 1)))) by lia.
  reflexivity.
Qed.

Lemma for_ext {S} lo hi (f g : Z -> S -> res S) s :
  (forall i s, lo <= i < hi -> f i s = g i s) -> for_ lo hi f s = for_ lo hi g s.
Proof.
  unfold for_. remember (Z.to_nat (hi - lo)) as n eqn:E.
  revert lo s E; induction n; intros lo s E H; simpl; auto.
  rewrite H by lia. destruct (g lo s); simpl; auto.
  apply IHn; [lia|]. intros; apply H; lia.
Qed.

Lemma for_u32_small {S} lo hi (body : Z -> S -> res S) s :
  hi < 4294967296 -> for_u32 lo hi body s = for_ lo hi body s.
Proof. intros; unfold for_u32, U32. now replace (hi <? 4294967296) with true by lia. Qed.

(** Early-exit loops: [P i s] holds before iteration [i]; [Q] describes the
    value carried by a break. *)
Lemma for_brk_inv {S R} (P : Z -> S -> Prop) (Q : R -> Prop) lo hi body s :
  lo <= hi -> P lo s ->
  (forall i s, lo <= i < hi -> P i s ->
     (exists s', body i s = Ok (inl s') /\ P (i + 1) s') \/
     (exists r, body i s = Ok (inr r) /\ Q r)) ->
  (exists s', for_brk lo hi body s = Ok (inl s') /\ P hi s') \/
  (exists r, for_brk lo hi body s = Ok (inr r) /\ Q r).
Proof.
  intros Hle. unfold for_brk. remember (Z.to_nat (hi - lo)) as n eqn:E.
  revert lo s Hle E. induction n; intros lo s Hle E H0 Hs; simpl.
  - left; exists s; split; auto. now replace hi with lo by lia.
  - destruct (Hs lo s) as [[s1 [E1 H1]]|[r [E1 H1]]]; [lia|assumption| |];
      rewrite E1; simpl.
    + apply IHn; auto; try lia. intros; apply Hs; auto; lia.
    + right; eauto.
Qed.

Lemma for_brk_step {S R} lo hi (body : Z -> S -> res (S + R)) s :
  lo < hi -> for_brk lo hi body s =
   bind (body lo s) (fun r => match r with inl s' => for_brk (lo + 1) hi body s' | inr x => Ok (inr x) end).
Proof.
  intros; unfold for_brk. replace (Z.to_nat (hi - lo)) with (Datatypes.S (Z.to_nat (hi - (lo + 1)))) by lia.
  reflexivity.
Qed.
Lemma for_brk_empty {S R} lo hi (body : Z -> S -> res (S + R)) s :
  hi <= lo -> for_brk lo hi body s = Ok (inl s).
Proof. intros; unfold for_brk. replace (Z.to_nat (hi - lo)) with 0%nat by lia. reflexivity. Qed.

(** While loops with a decreasing measure. *)
Lemma while_inv {S R} (P : S -> Prop) (Q : R -> Prop) (m : S -> nat) body fuel : forall s,
  (m s < fuel)%nat -> P s ->
  (forall s, P s ->
     (exists s', body s = Ok (inl s') /\ P s' /\ (m s' < m s)%nat) \/
     (exists r, body s = Ok (inr r) /\ Q r)) ->
  exists r, while_ fuel body s = Ok r /\ Q r.
Proof.
  induction fuel; intros s Hm H0 Hs; [lia|]. simpl.
  destruct (Hs s H0) as [[s1 [E1 [H1 Hm1]]]|[r [E1 H1]]]; rewrite E1; simpl.
  - apply IHfuel; auto. lia.
  - eauto.
Qed.

Lemma while_fuel_mono {S R} (body : S -> res (S + R)) f : forall f' s r,
  while_ f body s = Ok r -> (f <= f')%nat -> while_ f' body s = Ok r.
Proof.
  induction f; intros f' s r H Hle; [discriminate|].
  destruct f'; [lia|]. simpl in *. destruct (body s) as [[s'|x]| | |]; simpl in *; try discriminate; auto.
  apply IHf; auto; lia.
Qed.

(** A loop whose body maps an invariant set to itself without ever leaving
    never terminates, whatever the fuel. *)
Lemma while_hang {S R} (P : S -> Prop) (body : S -> res (S + R)) :
  (forall s, P s -> exists s', body s = Ok (inl s') /\ P s') ->
  forall fuel s, P s -> while_ fuel body s = Hang.
Proof.
  intros H; induction fuel; intros s Hs; simpl; auto.
  destruct (H s Hs) as [s' [E Hs']]. rewrite E; simpl; auto.
Qed.

(** ** Two-dimensional writes of pixels (generic invariant of image loops) *)

(** [body x y b] overwrites exactly the [nc] bytes at [dst x y] with [v x y c]. *)
Definition writes_px (L nc : Z) (dst : Z -> Z -> Z) (v : Z -> Z -> Z -> option Z)
    (body : Z -> Z -> buf Z -> res (buf Z)) (x y : Z) : Prop :=
  forall b, blen b = L -> exists b', body x y b = Ok b' /\ blen b' = L /\
    forall j, bget b' j = if (dst x y <=? j) && (j <? dst x y + nc) then v x y (j - dst x y) else bget b j.

Lemma loop2d_writes L nc w h dst v body b0 :
  0 <= w -> 0 <= h -> blen b0 = L ->
  (forall x y, 0 <= x < w -> 0 <= y < h -> writes_px L nc dst v body x y) ->
  (forall x y x' y', 0 <= x < w -> 0 <= y < h -> 0 <= x' < w -> 0 <= y' < h ->
     (x <> x' \/ y <> y') -> dst x y + nc <= dst x' y' \/ dst x' y' + nc <= dst x y) ->
  exists b, for_ 0 h (fun y b => for_ 0 w (fun x b => body x y b) b) b0 = Ok b /\
    blen b = L /\
    (forall x y c, 0 <= x < w -> 0 <= y < h -> 0 <= c < nc -> bget b (dst x y + c) = v x y c) /\
    (forall j, (forall x y, 0 <= x < w -> 0 <= y < h -> ~ (dst x y <= j < dst x y + nc)) ->
       bget b j = bget b0 j).
Proof.
  intros Hw Hh HL Hbody Hdis.
  set (done := fun (y0 x0 x y : Z) => y < y0 \/ (y = y0 /\ x < x0)).
  set (I := fun y0 x0 b => blen b = L /\
      (forall x y c, 0 <= x < w -> 0 <= y < h -> 0 <= c < nc -> done y0 x0 x y -> bget b (dst x y + c) = v x y c) /\
      (forall j, (forall x y, 0 <= x < w -> 0 <= y < h -> ~ (dst x y <= j < dst x y + nc)) ->
         bget b j = bget b0 j)).
  destruct (for_inv (fun y b => I y 0 b) 0 h
     (fun y b => for_ 0 w (fun x b => body x y b) b) b0) as [b [E [H1 [H2 H3]]]].
  - exact Hh.
  - split; [assumption|split]; auto. intros x y c Hx Hy Hc [Hd|Hd]; lia.
  - intros y b Hy HI.
    destruct (for_inv (fun x b => I y x b) 0 w (fun x b => body x y b) b) as [b' [E' HI']]; auto.
    + intros x b1 Hx [Hl [Hv Hr]].
      destruct (Hbody x y Hx Hy b1 Hl) as [b2 [E2 [Hl2 Hg]]].
      exists b2; split; auto. split; [auto|split].
      * intros x' y' c Hx' Hy' Hc Hd. rewrite Hg.
        destruct (Z.eq_dec x' x); [destruct (Z.eq_dec y' y)|].
        -- subst. replace ((dst x y <=? dst x y + c) && (dst x y + c <? dst x y + nc)) with true by lia.
           f_equal; lia.
        -- destruct (Hdis x' y' x y) as [D|D]; auto;
           (replace ((dst x y <=? dst x' y' + c) && (dst x' y' + c <? dst x y + nc)) with false by lia);
           apply Hv; auto; unfold done in *; lia.
        -- destruct (Hdis x' y' x y) as [D|D]; auto;
           (replace ((dst x y <=? dst x' y' + c) && (dst x' y' + c <? dst x y + nc)) with false by lia);
           apply Hv; auto; unfold done in *; lia.
      * intros j Hj. rewrite Hg. specialize (Hj x y Hx Hy) as Hj'.
        replace ((dst x y <=? j) && (j <? dst x y + nc)) with false by lia. auto.
    + exists b'; split; auto. destruct HI' as [A1 [A2 A3]]. split; [auto|split]; auto.
      intros x' y' c Hx' Hy' Hc Hd. apply A2; auto. unfold done in *; lia.
  - exists b; split; [exact E|]. split; [exact H1|]. split; [|exact H3].
    intros x y c Hx Hy Hc. apply H2; auto. left; lia.
Qed.

(** ** Row-major index arithmetic *)

Lemma rm_bound w h x y : 0 <= x < w -> 0 <= y < h -> 0 <= y * w + x < w * h.
Proof. intros; nia. Qed.

Lemma rm_inj w x y x' y' : 0 <= x < w -> 0 <= x' < w -> y * w + x = y' * w + x' -> x = x' /\ y = y'.
Proof. intros; assert (y = y') by nia; subst; lia. Qed.

Lemma rm_lt w x y x' y' : 0 <= x < w -> 0 <= x' < w -> (x <> x' \/ y <> y') ->
  y * w + x < y' * w + x' \/ y' * w + x' < y * w + x.
Proof.
  intros Hx Hx' Hd. destruct (Z.lt_trichotomy (y * w + x) (y' * w + x')) as [H|[H|H]]; auto.
  apply rm_inj in H; auto. lia.
Qed.

Lemma rm_decomp w h i : 0 < w -> 0 <= i < w * h ->
  0 <= i mod w < w /\ 0 <= i / w < h /\ i = (i / w) * w + i mod w.
Proof.
  intros Hw Hi. pose proof (Z.div_mod i w). pose proof (Z.mod_pos_bound i w).
  repeat split; try lia; nia.
Qed.

(** Byte index decomposition for an [nc]-channel row-major image. *)
Lemma px_decomp w h nc i : 0 < w -> 0 < nc -> 0 <= i < w * h * nc ->
  exists x y c, 0 <= x < w /\ 0 <= y < h /\ 0 <= c < nc /\ i = (y * w + x) * nc + c.
Proof.
  intros Hw Hn Hi.
  exists ((i / nc) mod w), ((i / nc) / w), (i mod nc).
  pose proof (Z.div_mod i nc). pose proof (Z.mod_pos_bound i nc).
  assert (0 <= i / nc < w * h) by (split; [apply Z.div_pos; lia | apply Z.div_lt_upper_bound; lia]).
  destruct (rm_decomp w h (i / nc)) as [A [B C]]; auto.
  repeat split; lia.
Qed.

(** ** One-dimensional writes *)

Definition writes1 (L nc : Z) (dst : Z -> Z) (v : Z -> Z -> option Z)
    (body : Z -> buf Z -> res (buf Z)) (i : Z) : Prop :=
  forall b, blen b = L -> exists b', body i b = Ok b' /\ blen b' = L /\
    forall j, bget b' j = if (dst i <=? j) && (j <? dst i + nc) then v i (j - dst i) else bget b j.

Lemma loop1d_writes L nc n dst v body b0 :
  0 <= n -> blen b0 = L ->
  (forall i, 0 <= i < n -> writes1 L nc dst v body i) ->
  (forall i i', 0 <= i < n -> 0 <= i' < n -> i <> i' ->
     dst i + nc <= dst i' \/ dst i' + nc <= dst i) ->
  exists b, for_ 0 n body b0 = Ok b /\ blen b = L /\
    (forall i c, 0 <= i < n -> 0 <= c < nc -> bget b (dst i + c) = v i c).
Proof.
  intros Hn HL Hb Hd.
  destruct (for_inv (fun k b => blen b = L /\
     forall i c, 0 <= i < k -> 0 <= c < nc -> bget b (dst i + c) = v i c) 0 n body b0)
    as [b [E [H1 H2]]]; auto.
  - split; auto. intros; lia.
  - intros i b Hi [Hl Hv]. destruct (Hb i Hi b Hl) as [b' [E [L' G]]].
    exists b'; split; auto. split; auto. intros i' c Hi' Hc. rewrite G.
    destruct (Z.eq_dec i' i) as [->|Hne].
    + replace ((dst i <=? dst i + c) && (dst i + c <? dst i + nc)) with true by lia. f_equal; lia.
    + destruct (Hd i' i) as [D|D]; try lia;
      (replace ((dst i <=? dst i' + c) && (dst i' + c <? dst i + nc)) with false by lia);
      apply Hv; lia.
  - exists b; auto.
Qed.

(** ** [while2] agrees with [while_] *)

Fixpoint nsteps {S R} (n : nat) (body : S -> res (S + R)) (s : S) : res (S + R) :=
  match n with
  | O => Ok (inl s)
  | Datatypes.S n => r <- body s ;; match r with inl s' => nsteps n body s' | inr x => Ok (inr x) end
  end.
Lemma nsteps_add {S R} (body : S -> res (S + R)) a b : forall s,
  nsteps (a + b) body s = (r <- nsteps a body s ;; match r with inl s' => nsteps b body s' | inr x => Ok (inr x) end).
Proof.
  induction a; intros s; simpl; auto. destruct (body s) as [[s'|x]| | |]; simpl; auto.
Qed.
Lemma wsteps_nsteps {S R} (body : S -> res (S + R)) k : forall s, wsteps k body s = nsteps (2 ^ k) body s.
Proof.
  induction k; intros s.
  - simpl. destruct (body s) as [[s'|x]| | |]; reflexivity.
  - simpl wsteps. replace (2 ^ Datatypes.S k)%nat with (2 ^ k + 2 ^ k)%nat by (simpl; lia).
    rewrite nsteps_add, IHk. destruct (nsteps (2 ^ k) body s) as [[s'|x]| | |]; simpl; auto.
Qed.
Lemma while_nsteps {S R} (body : S -> res (S + R)) n : forall s r,
  while_ n body s = Ok r -> nsteps n body s = Ok (inr r).
Proof.
  induction n; intros s r H; simpl in *; [discriminate|].
  destruct (body s) as [[s'|x]| | |]; simpl in *; try discriminate; auto. congruence.
Qed.
Lemma while2_while {S R} (body : S -> res (S + R)) n k s r :
  while_ n body s = Ok r -> Z.of_nat n <= 2 ^ Z.of_nat k -> while2 k body s = Ok r.
Proof.
  intros H Hn. apply while_nsteps in H. unfold while2. rewrite wsteps_nsteps.
  assert (E : (2 ^ k = n + (2 ^ k - n))%nat).
  { assert (n <= 2 ^ k)%nat; [|lia]. apply Nat2Z.inj_le. rewrite Nat2Z.inj_pow. exact Hn. }
  rewrite E, nsteps_add, H. reflexivity.
Qed.
