From Verif Require Import Base BaseLemmas F Heap Spec Spec_Rel Spec_Morph Spec_Ops Spec_Seq P_Rel.
From Verif Require P_Geom.
Local Open Scope Z_scope.

(** Where the pixel at ([x], [y]) comes from: swap the axes, then mirror *)
Record pose := mkpose { sw : bool; mx : bool; my : bool }.
Definition pw (p : pose) (w h : Z) : Z := if sw p then h else w.
Definition ph (p : pose) (w h : Z) : Z := if sw p then w else h.
Definition px (p : pose) (w h x y : Z) : Z := let u := if sw p then y else x in if mx p then w - 1 - u else u.
Definition py (p : pose) (w h x y : Z) : Z := let v := if sw p then x else y in if my p then h - 1 - v else v.
Definition then_ (p : pose) (o : turning) : pose :=
  let '(a, b, c) := match o with
    | Mirror_x => (false, true, false) | Mirror_y => (false, false, true) | Half_turn => (false, true, true)
    | Transposed => (true, false, false) | Transversed => (true, true, true)
    | Right_turn => (true, false, true) | Left_turn => (true, true, false) end in
  mkpose (xorb (sw p) a) (xorb (mx p) (if sw p then c else b)) (xorb (my p) (if sw p then b else c)).
Definition letter_at (right below : bool) : letter := match right, below with false, false => A | true, false => B | true, true => C | false, true => D end.
Definition sheet_of (p : pose) : sheet :=
  let f r b := letter_at (xorb (mx p) (if sw p then b else r)) (xorb (my p) (if sw p then r else b)) in
  mksheet (f false false) (f true false) (f true true) (f false true).

Lemma then_sheet p o : sheet_of (then_ p o) = turn_sheet (sheet_of p) o.
Proof. destruct p as [[] [] []], o; reflexivity. Qed.
Lemma sheet_inj p q : sheet_of p = sheet_of q -> p = q.
Proof. destruct p as [[] [] []], q as [[] [] []]; try reflexivity; intros H; discriminate H. Qed.
Lemma then_size p o w h : pw (then_ p o) w h = tw o (pw p w h) (ph p w h) /\ ph (then_ p o) w h = th o (pw p w h) (ph p w h).
Proof. destruct p as [[] [] []], o; split; reflexivity. Qed.
Lemma then_px p o w h x y : px p w h (from_x o (pw p w h) (ph p w h) x y) (from_y o (pw p w h) (ph p w h) x y) = px (then_ p o) w h x y /\
  py p w h (from_x o (pw p w h) (ph p w h) x y) (from_y o (pw p w h) (ph p w h) x y) = py (then_ p o) w h x y.
Proof. destruct p as [[] [] []], o; unfold px, py, pw, ph; cbn; lia. Qed.
Definition pose_after (os : list turning) : pose := fold_left then_ os (mkpose false false false).
Lemma pose_sheet os : sheet_of (pose_after os) = sheet_after os.
Proof.
  unfold pose_after, sheet_after. change unturned with (sheet_of (mkpose false false false)). generalize (mkpose false false false).
  induction os as [|o os IH]; intros p; cbn; auto. rewrite IH, then_sheet. reflexivity.
Qed.

Lemma sequence_pose w h b os w1 h1 b1 : dims_ok w h -> image (w * h * 4) b -> sequence w h b os w1 h1 b1 ->
  let p := pose_after os in w1 = pw p w h /\ h1 = ph p w h /\ dims_ok w1 h1 /\ image (w1 * h1 * 4) b1 /\
  forall x y c, inside w1 h1 x y -> 0 <= c < 4 -> pix b1 w1 4 x y c = pix b w 4 (px p w h x y) (py p w h x y) c.
Proof.
  intros D Im S. induction S as [|os w0 h0 b0 o b1 S IH C]; cbn zeta in *.
  - cbn. unfold px, py. cbn. auto.
  - destruct IH as (-> & -> & D0 & I0 & V). unfold pose_after. rewrite fold_left_app. cbn [fold_left]. fold (pose_after os).
    destruct (then_size (pose_after os) o w h) as [-> ->]. set (w0 := pw (pose_after os) w h) in *. set (h0 := ph (pose_after os) w h) in *.
    destruct (turn_calls o w0 h0 b0 b1 D0 I0 C) as [[_ X] V1]. split; [reflexivity|]. split; [reflexivity|]. split; [now apply dims_turn|]. split; [exact X|].
    intros x y c IN Hc. rewrite (V1 x y c IN Hc). rewrite V; auto; [|now apply from_inside].
    destruct (then_px (pose_after os) o w h x y) as [E1 E2]. fold w0 h0 in E1, E2. now rewrite E1, E2.
Qed.

Lemma sequences_agree w h b os os' w1 h1 b1 w2 h2 b2 : dims_ok w h -> image (w * h * 4) b ->
  sequence w h b os w1 h1 b1 -> sequence w h b os' w2 h2 b2 -> sheet_after os = sheet_after os' ->
  w1 = w2 /\ h1 = h2 /\ same_bytes (w1 * h1 * 4) b1 b2.
Proof.
  intros Dm Im S S' E. rewrite <- !pose_sheet in E. apply sheet_inj in E.
  destruct (sequence_pose _ _ _ _ _ _ _ Dm Im S) as (E1 & E2 & D1 & _ & V). destruct (sequence_pose _ _ _ _ _ _ _ Dm Im S') as (E1' & E2' & _ & _ & V').
  rewrite <- E in *. assert (w2 = w1) by congruence. assert (h2 = h1) by congruence. clear E1 E2 E1' E2'. subst w2 h2. split; [reflexivity|]. split; [reflexivity|].
  intros i Hi. destruct D1 as (_ & _ & W1 & H1 & _).
  assert (Q : 0 <= i / 4 < w1 * h1) by (split; [apply Z.div_pos; lia|apply Z.div_lt_upper_bound; lia]).
  pose proof (Z.div_mod i 4 ltac:(lia)) as Ei. pose proof (Z.mod_pos_bound i 4 ltac:(lia)) as Mi.
  pose proof (Z.div_mod (i / 4) w1 ltac:(lia)) as Ej. pose proof (Z.mod_pos_bound (i / 4) w1 ltac:(lia)) as Mj.
  assert (IN : inside w1 h1 (i / 4 mod w1) (i / 4 / w1)).
  { split; [lia|]. split; [apply Z.div_pos; lia|apply Z.div_lt_upper_bound; lia]. }
  pose proof (V _ _ (i mod 4) IN Mi) as Va. pose proof (V' _ _ (i mod 4) IN Mi) as Vb. unfold pix in Va, Vb.
  replace ((i / 4 / w1 * w1 + i / 4 mod w1) * 4 + i mod 4) with i in Va, Vb by nia. congruence.
Qed.

Lemma sequence_back w h b os w1 h1 b1 : dims_ok w h -> image (w * h * 4) b -> sequence w h b os w1 h1 b1 -> sheet_after os = unturned ->
  w1 = w /\ h1 = h /\ same_bytes (w * h * 4) b b1.
Proof.
  intros Dm Im S E. destruct (sequences_agree w h b os [] w1 h1 b1 w h b Dm Im S (none _ _ _) E) as (-> & -> & H).
  split; [reflexivity|]. split; [reflexivity|]. intros i Hi. symmetry. now apply H.
Qed.

(** ** Turning and changing tones, mixed *)
Definition to_x (p : pose) (w h u v : Z) : Z := if sw p then (if my p then h - 1 - v else v) else (if mx p then w - 1 - u else u).
Definition to_y (p : pose) (w h u v : Z) : Z := if sw p then (if mx p then w - 1 - u else u) else (if my p then h - 1 - v else v).
Lemma to_inside p w h u v : inside w h u v -> inside (pw p w h) (ph p w h) (to_x p w h u v) (to_y p w h u v).
Proof. unfold inside, pw, ph, to_x, to_y. destruct p as [[] [] []]; cbn; lia. Qed.
Lemma px_inside p w h x y : inside (pw p w h) (ph p w h) x y -> inside w h (px p w h x y) (py p w h x y).
Proof. unfold inside, pw, ph, px, py. destruct p as [[] [] []]; cbn; lia. Qed.
Lemma to_px p w h x y : to_x p w h (px p w h x y) (py p w h x y) = x /\ to_y p w h (px p w h x y) (py p w h x y) = y.
Proof. unfold px, py, to_x, to_y. destruct p as [[] [] []]; cbn; lia. Qed.
Lemma then_to p o w h u v :
  from_x o (pw p w h) (ph p w h) (to_x (then_ p o) w h u v) (to_y (then_ p o) w h u v) = to_x p w h u v /\
  from_y o (pw p w h) (ph p w h) (to_x (then_ p o) w h u v) (to_y (then_ p o) w h u v) = to_y p w h u v.
Proof. destruct p as [[] [] []], o; unfold to_x, to_y, pw, ph; cbn; lia. Qed.

Definition asis := mkpose false false false.
Lemma pose_turning p : p = asis \/ exists o, p = then_ asis o.
Proof.
  destruct p as [[] [] []]; [right; exists Transversed|right; exists Left_turn|right; exists Right_turn|right; exists Transposed
    |right; exists Half_turn|right; exists Mirror_x|right; exists Mirror_y|left]; reflexivity.
Qed.
Lemma asis_from o w h x y : px (then_ asis o) w h x y = from_x o w h x y /\ py (then_ asis o) w h x y = from_y o w h x y.
Proof. destruct o; split; reflexivity. Qed.

Lemma count_pose p w h G : 0 < w -> 0 < h -> count_px (pw p w h) (ph p w h) G = count_px w h (fun u v => G (to_x p w h u v) (to_y p w h u v)).
Proof.
  intros Hw Hh. destruct (pose_turning p) as [->|[o E]]; [reflexivity|].
  assert (S : pw p w h = tw o w h /\ ph p w h = th o w h) by (subst p; destruct o; split; reflexivity). destruct S as [-> ->].
  rewrite <- (count_turn o w h (fun u v => G (to_x p w h u v) (to_y p w h u v))) by auto.
  apply count_px_ext; [destruct o; auto|destruct o; auto|]. intros x y _.
  destruct (asis_from o w h x y) as [<- <-]. rewrite <- E. destruct (to_px p w h x y) as [-> ->]. reflexivity.
Qed.

Lemma turns_app es e : turns_of (es ++ e) = turns_of es ++ turns_of e. Proof. apply flat_map_app. Qed.
Lemma tones_app es e : tones_of (es ++ e) = tones_of es ++ tones_of e. Proof. apply flat_map_app. Qed.
Definition pose_of es := pose_after (turns_of es).
Lemma pose_of_turn es o : pose_of (es ++ [Turn o]) = then_ (pose_of es) o.
Proof. unfold pose_of, pose_after. rewrite turns_app. cbn. rewrite fold_left_app. reflexivity. Qed.
Lemma pose_of_tone es T : pose_of (es ++ [Tone T]) = pose_of es.
Proof. unfold pose_of, pose_after. rewrite turns_app. cbn. rewrite app_nil_r. reflexivity. Qed.

Lemma changes_size w h b es w1 h1 b1 : dims_ok w h -> w * h <= 1073741824 -> image (w * h * 4) b -> changes w h b es w1 h1 b1 ->
  w1 = pw (pose_of es) w h /\ h1 = ph (pose_of es) w h /\ dims_ok w1 h1 /\ w1 * h1 = w * h /\ image (w1 * h1 * 4) b1.
Proof.
  intros D Hn Im S. induction S as [|es w0 h0 b0 o b1 S IH C|es w0 h0 b0 T b1 S IH HT C].
  - cbn. auto 6.
  - destruct IH as (-> & -> & D0 & E0 & I0). rewrite pose_of_turn. destruct (then_size (pose_of es) o w h) as [-> ->].
    destruct (turn_calls _ _ _ _ _ D0 I0 C) as [[_ X] _]. rewrite tw_th in *. split; [reflexivity|]. split; [reflexivity|]. split; [now apply dims_turn|]. auto.
  - destruct IH as (-> & -> & D0 & E0 & I0). rewrite pose_of_tone. split; [reflexivity|]. split; [reflexivity|]. split; [exact D0|]. split; [exact E0|].
    apply (tone_calls T _ _ b0 b1 HT D0); auto. lia.
Qed.

Lemma gray_eq b w x y b' w' x' y' : (forall c, 0 <= c < 4 -> pix b w 4 x y c = pix b' w' 4 x' y' c) -> gray_at b w x y = gray_at b' w' x' y'.
Proof. intros H. unfold gray_at, pixv. rewrite !H by lia. reflexivity. Qed.

Lemma changes_agree_at w h b : dims_ok w h -> w * h <= 1073741824 -> image (w * h * 4) b ->
  forall es w1 h1 b1, changes w h b es w1 h1 b1 -> forall es' w2 h2 b2, changes w h b es' w2 h2 b2 -> tones_of es = tones_of es' ->
  forall u v c, inside w h u v -> 0 <= c < 4 ->
    pix b1 w1 4 (to_x (pose_of es) w h u v) (to_y (pose_of es) w h u v) c = pix b2 w2 4 (to_x (pose_of es') w h u v) (to_y (pose_of es') w h u v) c.
Proof.
  intros D Hn Im es w1 h1 b1 S. pose proof D as (_ & _ & Hw & Hh & _).
  assert (TURN : forall es w0 h0 b0 o b1, changes w h b es w0 h0 b0 -> calls (turn o) w0 h0 b0 b1 -> forall u v c, inside w h u v -> 0 <= c < 4 ->
    pix b1 (tw o w0 h0) 4 (to_x (pose_of (es ++ [Turn o])) w h u v) (to_y (pose_of (es ++ [Turn o])) w h u v) c =
    pix b0 w0 4 (to_x (pose_of es) w h u v) (to_y (pose_of es) w h u v) c).
  { clear S. intros es0 w0 h0 b0 o b1' S C u v c IN Hc. destruct (changes_size _ _ _ _ _ _ _ D Hn Im S) as (E1 & E2 & D0 & _ & I0).
    destruct (turn_calls _ _ _ _ _ D0 I0 C) as [_ V]. rewrite pose_of_turn. rewrite V; [|rewrite E1, E2; destruct (then_size (pose_of es0) o w h) as [<- <-]; now apply to_inside|auto].
    rewrite E1, E2. destruct (then_to (pose_of es0) o w h u v) as [-> ->]. reflexivity. }
  induction S as [|es w0 h0 b0 o b1 S IH C|es w0 h0 b0 T b1 S IH HT C].
  - intros es' w2 h2 b2 S'. induction S' as [|es' w0' h0' b0' o' b1' S' IH' C'|es' w0' h0' b0' T' b1' S' IH' HT' C']; intros HE u v c IN Hc.
    + reflexivity.
    + rewrite (TURN _ _ _ _ _ _ S' C' u v c IN Hc). apply IH'; auto. rewrite HE, tones_app. cbn. now rewrite app_nil_r.
    + exfalso. rewrite tones_app in HE. symmetry in HE. apply app_eq_nil in HE. destruct HE as [_ HE]. discriminate HE.
  - intros es' w2 h2 b2 S' HE u v c IN Hc. rewrite (TURN _ _ _ _ _ _ S C u v c IN Hc). apply (IH es' w2 h2 b2 S'); auto.
    rewrite <- HE, tones_app. cbn. now rewrite app_nil_r.
  - intros es' w2 h2 b2 S'. induction S' as [|es' w0' h0' b0' o' b1' S' IH' C'|es' w0' h0' b0' T' b1' S' IH' HT' C']; intros HE u v c IN Hc.
    + exfalso. rewrite tones_app in HE. apply app_eq_nil in HE. destruct HE as [_ HE]. discriminate HE.
    + rewrite (TURN _ _ _ _ _ _ S' C' u v c IN Hc). apply IH'; auto. rewrite HE, tones_app. cbn. now rewrite app_nil_r.
    + rewrite !tones_app in HE. cbn in HE. apply app_inj_tail in HE. destruct HE as [HE <-]. clear IH'. rewrite !pose_of_tone.
      pose proof (IH es' w0' h0' b0' S' HE) as EQ.
      destruct (changes_size _ _ _ _ _ _ _ D Hn Im S) as (E1 & E2 & D0 & N0 & I0). destruct (changes_size _ _ _ _ _ _ _ D Hn Im S') as (E1' & E2' & D0' & N0' & I0').
      assert (G : forall u v, inside w h u v -> gray_at b0 w0 (to_x (pose_of es) w h u v) (to_y (pose_of es) w h u v) =
        gray_at b0' w0' (to_x (pose_of es') w h u v) (to_y (pose_of es') w h u v)) by (intros u' v' IN'; apply gray_eq; intros c' Hc'; now apply EQ).
      apply (tone_same T w0 h0 b0 b1 w0' h0' b0' b1'); auto; try lia.
      * intros Q. rewrite E1, E2, E1', E2'. rewrite !count_pose by auto. rewrite <- E1, <- E1'.
        apply count_px_ext; auto. intros x y IN'. now rewrite G.
      * rewrite E1, E2. now apply to_inside.
      * rewrite E1', E2'. now apply to_inside.
Qed.

Lemma px_to p w h x y : px p w h (to_x p w h x y) (to_y p w h x y) = x /\ py p w h (to_x p w h x y) (to_y p w h x y) = y.
Proof. unfold px, py, to_x, to_y. destruct p as [[] [] []]; cbn; lia. Qed.

Lemma changes_agree w h b es es' w1 h1 b1 w2 h2 b2 : dims_ok w h -> w * h <= 1073741824 -> image (w * h * 4) b ->
  changes w h b es w1 h1 b1 -> changes w h b es' w2 h2 b2 -> tones_of es = tones_of es' -> sheet_after (turns_of es) = sheet_after (turns_of es') ->
  w1 = w2 /\ h1 = h2 /\ same_bytes (w1 * h1 * 4) b1 b2.
Proof.
  intros D Hn Im S S' HT E. rewrite <- !pose_sheet in E. apply sheet_inj in E. fold (pose_of es) in E. fold (pose_of es') in E.
  pose proof (changes_agree_at w h b D Hn Im es w1 h1 b1 S es' w2 h2 b2 S' HT) as A.
  destruct (changes_size _ _ _ _ _ _ _ D Hn Im S) as (E1 & E2 & D1 & _ & _). destruct (changes_size _ _ _ _ _ _ _ D Hn Im S') as (E1' & E2' & _).
  rewrite <- E in *. assert (Ew : w2 = w1) by congruence. assert (Eh : h2 = h1) by congruence.
  split; [auto|]. split; [auto|]. pose proof D1 as (_ & _ & W1 & H1 & _). apply P_Geom.same_bytes_pix; auto. intros x y c Hx Hy Hc.
  assert (IN : inside (pw (pose_of es) w h) (ph (pose_of es) w h) x y) by (rewrite <- E1, <- E2; split; auto).
  pose proof (A _ _ c (px_inside _ _ _ _ _ IN) Hc) as V. destruct (to_px (pose_of es) w h x y) as [-> ->] in V. rewrite Ew in V. auto.
Qed.

(** ** Where the pixels are *)
Lemma laid_pose p w h b w1 h1 b1 : w1 = pw p w h -> h1 = ph p w h ->
  (forall x y c, inside w1 h1 x y -> 0 <= c < 4 -> pix b1 w1 4 x y c = pix b w 4 (px p w h x y) (py p w h x y) c) ->
  laid (sheet_of p) w h b w1 h1 b1.
Proof.
  intros E1 E2 V. split; [subst; destruct p as [[] [] []]; cbn; auto|]. intros x y c Hx Hy Hc. rewrite (V x y c (conj Hx Hy) Hc).
  f_equal; destruct p as [[] [] []]; unfold px, py, sheet_of; cbn [sw mx my xorb letter_at tl tr br bl column row]; lia.
Qed.
Lemma sequence_laid w h b os w1 h1 b1 : dims_ok w h -> image (w * h * 4) b -> sequence w h b os w1 h1 b1 ->
  laid (sheet_after os) w h b w1 h1 b1.
Proof.
  intros D I S. destruct (sequence_pose _ _ _ _ _ _ _ D I S) as (E1 & E2 & _ & _ & V). rewrite <- pose_sheet. now apply laid_pose.
Qed.
