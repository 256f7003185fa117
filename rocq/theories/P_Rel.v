(** * P_Rel: combinations of functions *)
From Coq Require Import Reals Sorting.Permutation.
From Verif Require Import Base BaseLemmas F FLemmas Heap Spec Spec_Trim Spec_Morph Spec_Hist Spec_Color Spec_Sobel Spec_Rel Spec_Ops CountLemmas
  Spec_Draw
  M_Geom M_Color M_Otsu M_Sobel M_Hist M_Draw M_Trim M_Morph P_Geom P_Color P_Color2 P_Color3 P_Otsu P_Sobel P_Hist P_Border P_Crop P_Trim P_Morph P_Draw P_Draw2.
Local Open Scope Z_scope.

(** ** Turning *)

Lemma from_inside o w h x y : inside (tw o w h) (th o w h) x y -> inside w h (from_x o w h x y) (from_y o w h x y).
Proof. unfold inside. destruct o; cbn; lia. Qed.
Lemma from_undo o w h x y : inside w h x y ->
  inside (tw o w h) (th o w h) (from_x (undo o) (tw o w h) (th o w h) x y) (from_y (undo o) (tw o w h) (th o w h) x y) /\
  from_x o w h (from_x (undo o) (tw o w h) (th o w h) x y) (from_y (undo o) (tw o w h) (th o w h) x y) = x /\
  from_y o w h (from_x (undo o) (tw o w h) (th o w h) x y) (from_y (undo o) (tw o w h) (th o w h) x y) = y.
Proof. unfold inside. destruct o; cbn; lia. Qed.
Lemma undo_from o w h x y :
  from_x (undo o) (tw o w h) (th o w h) (from_x o w h x y) (from_y o w h x y) = x /\
  from_y (undo o) (tw o w h) (th o w h) (from_x o w h x y) (from_y o w h x y) = y.
Proof. destruct o; cbn; lia. Qed.
Lemma tw_th o w h : tw o w h * th o w h = w * h.
Proof. destruct o; cbn; lia. Qed.
Lemma dims_turn o w h : dims_ok w h -> dims_ok (tw o w h) (th o w h).
Proof. destruct o; cbn; auto using dims_swap. Qed.

Lemma turn_calls o w h b b' : dims_ok w h -> image (w * h * 4) b -> calls (turn o) w h b b' ->
  exact_image (tw o w h * th o w h * 4) b' /\
  forall x y c, inside (tw o w h) (th o w h) x y -> 0 <= c < 4 ->
    pix b' (tw o w h) 4 x y c = pix b w 4 (from_x o w h x y) (from_y o w h x y) c.
Proof.
  intros D I C. destruct o; cbn in C |- *.
  - apply flip_x_calls in C; auto. destruct C as [A B]. split; auto. intros x y c [Hx Hy]. apply B; auto.
  - apply flip_y_calls in C; auto. destruct C as [A B]. split; auto. intros x y c [Hx Hy]. apply B; auto.
  - apply rotate_180_calls in C; auto. destruct C as [A B]. split; auto. intros x y c [Hx Hy]. apply B; auto.
  - apply transpose_calls in C; auto. destruct C as [A B]. split; auto. intros x y c [Hx Hy]. apply B; auto.
  - apply transverse_calls in C; auto. destruct C as [A B]. split; auto. intros x y c [Hx Hy]. apply B; auto.
  - apply rotate_90_calls in C; auto. destruct C as [A B]. split; auto. intros x y c [Hx Hy]. apply B; auto.
  - apply rotate_270_calls in C; auto. destruct C as [A B]. split; auto. intros x y c [Hx Hy]. apply B; auto.
Qed.

Lemma turn_gray o w h b b' : dims_ok w h -> image (w * h * 4) b -> calls (turn o) w h b b' ->
  forall x y, inside (tw o w h) (th o w h) x y -> gray_at b' (tw o w h) x y = gray_at b w (from_x o w h x y) (from_y o w h x y).
Proof.
  intros D I C x y H. destruct (turn_calls o w h b b' D I C) as [_ V]. unfold gray_at, pixv. rewrite !V by (auto; lia). reflexivity.
Qed.

(** ** Counting *)
Definition upto (n : nat) : list Z := map Z.of_nat (seq 0 n).
Lemma count_filter P n : count_nat P n = Z.of_nat (length (filter P (upto n))).
Proof.
  unfold upto. induction n as [|n IH]; [reflexivity|].
  rewrite seq_S, map_app, filter_app, app_length. cbn [map filter count_nat]. rewrite IH. change (0 + n)%nat with n.
  destruct (P (Z.of_nat n)); cbn [length]; lia.
Qed.
Lemma filter_perm (P : Z -> bool) (l l' : list Z) : Permutation l l' -> length (filter P l) = length (filter P l').
Proof. induction 1; cbn; try destruct (P x); try destruct (P y); cbn; congruence. Qed.
Lemma filter_map (P : Z -> bool) (f : Z -> Z) (l : list Z) : length (filter P (map f l)) = length (filter (fun i => P (f i)) l).
Proof. induction l as [|a l IH]; cbn; auto. destruct (P (f a)); cbn; congruence. Qed.
Lemma upto_in n i : In i (upto n) <-> 0 <= i < Z.of_nat n.
Proof.
  unfold upto. rewrite in_map_iff. split.
  - intros (k & <- & H). apply in_seq in H. lia.
  - intros H. exists (Z.to_nat i). split; [lia|]. apply in_seq. lia.
Qed.
Lemma upto_nodup n : NoDup (upto n).
Proof. unfold upto. apply FinFun.Injective_map_NoDup; [intros a b; lia|apply seq_NoDup]. Qed.

Lemma count_bij (P : Z -> bool) f g n : 0 <= n ->
  (forall i, 0 <= i < n -> 0 <= f i < n /\ g (f i) = i) -> (forall i, 0 <= i < n -> 0 <= g i < n /\ f (g i) = i) ->
  count (fun i => P (f i)) n = count P n.
Proof.
  intros Hn F G. unfold count. rewrite !count_filter, <- filter_map. f_equal. apply filter_perm.
  assert (K : Z.of_nat (Z.to_nat n) = n) by lia.
  apply NoDup_Permutation.
  - assert (GM : forall l, (forall i, In i l -> 0 <= i < n) -> NoDup l -> NoDup (map f l)).
    { induction l as [|a l IH]; intros HI ND; cbn; constructor.
      - intros I. apply in_map_iff in I. destruct I as (c & E & I). inversion ND; subst.
        assert (c = a); [|congruence]. rewrite <- (proj2 (F c (HI c (or_intror I)))), E. apply F. apply HI. left; auto.
      - apply IH; [intros; apply HI; right; auto|inversion ND; auto]. }
    apply GM; [intros i I; apply upto_in in I; lia|apply upto_nodup].
  - apply upto_nodup.
  - intros i. rewrite in_map_iff, upto_in, K. split.
    + intros (j & <- & I). apply upto_in in I. apply F. lia.
    + intros I. exists (g i). split; [apply G; auto|]. apply upto_in. rewrite K. apply G; auto.
Qed.

(** Turning does not change what is counted. *)
Lemma count_turn o w h (Q : Z -> Z -> bool) : 0 < w -> 0 < h ->
  count_px (tw o w h) (th o w h) (fun x y => Q (from_x o w h x y) (from_y o w h x y)) = count_px w h Q.
Proof.
  intros Hw Hh. unfold count_px. rewrite tw_th.
  set (w' := tw o w h). set (h' := th o w h).
  assert (Hw' : 0 < w') by (unfold w', tw; destruct (swaps o); auto).
  assert (Hh' : 0 < h') by (unfold h', th; destruct (swaps o); auto).
  assert (E : w' * h' = w * h) by apply tw_th.
  set (f := fun i => from_y o w h (i mod w') (i / w') * w + from_x o w h (i mod w') (i / w')).
  set (g := fun i => from_y (undo o) w' h' (i mod w) (i / w) * w' + from_x (undo o) w' h' (i mod w) (i / w)).
  assert (DM : forall v x y, 0 < v -> 0 <= x < v -> (y * v + x) mod v = x /\ (y * v + x) / v = y).
  { intros v x y Hv Hx. split.
    - rewrite Z.add_comm, Z.mod_add by lia. apply Z.mod_small; auto.
    - rewrite Z.add_comm, Z.div_add by lia. rewrite Z.div_small; auto. }
  rewrite <- (count_bij (fun i => Q (i mod w) (i / w)) f g (w * h)); [|nia| |].
  - apply count_ext. intros i Hi. rewrite <- E in Hi. destruct (rm_decomp w' h' i) as (A & B & C); auto.
    unfold f. destruct (DM w (from_x o w h (i mod w') (i / w')) (from_y o w h (i mod w') (i / w'))) as [-> ->]; auto.
    apply from_inside. split; auto.
  - intros i Hi. rewrite <- E in Hi. destruct (rm_decomp w' h' i) as (A & B & C); auto.
    assert (IN := from_inside o w h (i mod w') (i / w') (conj A B)). destruct IN as [IN1 IN2]. unfold f.
    split; [pose proof (rm_bound w h _ _ IN1 IN2); lia|]. unfold g.
    destruct (DM w (from_x o w h (i mod w') (i / w')) (from_y o w h (i mod w') (i / w'))) as [-> ->]; auto.
    destruct (undo_from o w h (i mod w') (i / w')) as [E1 E2]. fold w' h' in E1, E2. rewrite E1, E2. lia.
  - intros i Hi. destruct (rm_decomp w h i) as (A & B & C); auto.
    destruct (from_undo o w h (i mod w) (i / w) (conj A B)) as ([IN1 IN2] & E1 & E2). fold w' h' in IN1, IN2, E1, E2. unfold g.
    split; [pose proof (rm_bound w' h' _ _ IN1 IN2); lia|]. unfold f.
    destruct (DM w' (from_x (undo o) w' h' (i mod w) (i / w)) (from_y (undo o) w' h' (i mod w) (i / w))) as [-> ->]; auto.
    rewrite E1, E2. lia.
Qed.

Lemma count_px_ext w h P Q : 0 < w -> 0 < h -> (forall x y, inside w h x y -> P x y = Q x y) -> count_px w h P = count_px w h Q.
Proof.
  intros Hw Hh H. apply count_ext. intros i Hi. destruct (rm_decomp w h i) as (A & B & C); auto. apply H. split; auto.
Qed.

Lemma turn_counts o w h b b' (Q : Z -> bool) : dims_ok w h -> image (w * h * 4) b -> calls (turn o) w h b b' ->
  count_px (tw o w h) (th o w h) (fun x y => Q (gray_at b' (tw o w h) x y)) = count_px w h (fun x y => Q (gray_at b w x y)).
Proof.
  intros D I C. pose proof (dims_turn o w h D) as D'. pose proof D as (_ & _ & Hw & Hh & _). pose proof D' as (_ & _ & Hw' & Hh' & _).
  rewrite <- (count_turn o w h (fun x y => Q (gray_at b w x y)) Hw Hh).
  apply count_px_ext; auto. intros x y IN. rewrite (turn_gray o w h b b' D I C x y IN). reflexivity.
Qed.

(** ** Tones *)

Lemma opaque_pix b w x y b' w' x' y' g : opaque_gray b w x y g -> opaque_gray b' w' x' y' g ->
  forall c, 0 <= c < 4 -> pix b w 4 x y c = pix b' w' 4 x' y' c.
Proof.
  intros (A & B & C & D) (A' & B' & C' & D') c Hc.
  assert (c = 0 \/ c = 1 \/ c = 2 \/ c = 3) as [->|[->|[->| ->]]] by lia; congruence.
Qed.

Lemma count_px_le w h P Q : 0 < w -> 0 < h -> (forall x y, inside w h x y -> P x y = true -> Q x y = true) ->
  count_px w h P <= count_px w h Q.
Proof.
  intros Hw Hh H. apply count_le; [nia|]. intros i Hi. destruct (rm_decomp w h i) as (A & B & C); auto. apply H. split; auto.
Qed.

(** Tone functions see only the counts of gray levels. *)
Lemma tone_same T w1 h1 b1 b1' w2 h2 b2 b2' x1 y1 x2 y2 : In T tones ->
  dims_ok w1 h1 -> dims_ok w2 h2 -> w1 * h1 = w2 * h2 -> w1 * h1 <= 1073741824 ->
  image (w1 * h1 * 4) b1 -> image (w2 * h2 * 4) b2 ->
  (forall Q : Z -> bool, count_px w1 h1 (fun x y => Q (gray_at b1 w1 x y)) = count_px w2 h2 (fun x y => Q (gray_at b2 w2 x y))) ->
  calls T w1 h1 b1 b1' -> calls T w2 h2 b2 b2' -> inside w1 h1 x1 y1 -> inside w2 h2 x2 y2 ->
  gray_at b1 w1 x1 y1 = gray_at b2 w2 x2 y2 ->
  forall c, 0 <= c < 4 -> pix b1' w1 4 x1 y1 c = pix b2' w2 4 x2 y2 c.
Proof.
  intros IT D1 D2 En Hn I1 I2 HC C1 C2 [X1 Y1] [X2 Y2] Hg.
  assert (Hn2 : w2 * h2 <= 1073741824) by lia.
  pose proof D1 as (_ & _ & P1 & P1' & _). pose proof D2 as (_ & _ & P2 & P2' & _).
  destruct IT as [<-|[<-|[<-|[<-|[]]]]].
  - apply (calls_inv' _ _ _ _ _ _ (fun s p Hwf Hp => grayscale_ok w1 h1 s p b1 Hwf D1 Hn Hp I1)) in C1.
    apply (calls_inv' _ _ _ _ _ _ (fun s p Hwf Hp => grayscale_ok w2 h2 s p b2 Hwf D2 Hn2 Hp I2)) in C2.
    destruct C1 as [_ C1], C2 as [_ C2]. eapply opaque_pix; [apply C1; auto|]. rewrite Hg. apply C2; auto.
  - apply (calls_inv' _ _ _ _ _ _ (fun s p Hwf Hp => grayscale_stretch_ok w1 h1 s p b1 Hwf D1 Hn Hp I1)) in C1.
    apply (calls_inv' _ _ _ _ _ _ (fun s p Hwf Hp => grayscale_stretch_ok w2 h2 s p b2 Hwf D2 Hn2 Hp I2)) in C2.
    destruct C1 as (_ & lo1 & hi1 & L1 & L1' & (A1 & B1) & (A1' & B1') & V1).
    destruct C2 as (_ & lo2 & hi2 & L2 & L2' & (A2 & B2) & (A2' & B2') & V2).
    rewrite (HC (fun g => g <=? lo1)) in A1. rewrite (HC (fun g => g <? lo1)) in B1.
    rewrite (HC (fun g => hi1 <=? g)) in A1'. rewrite (HC (fun g => hi1 <? g)) in B1'. rewrite En in *.
    assert (LE : forall u v, u < v -> count_px w2 h2 (fun x y => gray_at b2 w2 x y <=? u) <= count_px w2 h2 (fun x y => gray_at b2 w2 x y <? v)).
    { intros u v Huv. apply count_px_le; auto. intros. lia. }
    assert (GE : forall u v, u < v -> count_px w2 h2 (fun x y => v <=? gray_at b2 w2 x y) <= count_px w2 h2 (fun x y => u <? gray_at b2 w2 x y)).
    { intros u v Huv. apply count_px_le; auto. intros. lia. }
    assert (lo1 = lo2).
    { destruct (Z.lt_trichotomy lo1 lo2) as [H|[H|H]]; auto; exfalso; [pose proof (LE _ _ H)|pose proof (LE _ _ H)]; lia. }
    assert (hi1 = hi2).
    { destruct (Z.lt_trichotomy hi1 hi2) as [H'|[H'|H']]; auto; exfalso; [pose proof (GE _ _ H')|pose proof (GE _ _ H')]; lia. }
    subst. eapply opaque_pix; [apply V1; auto|]. rewrite Hg. apply V2; auto.
  - apply (otsu_same_histogram false w1 h1 b1 b1' w2 h2 b2 b2' x1 y1 x2 y2); auto; try lia. intros v _. apply (HC (fun g => g =? v)).
  - apply (otsu_same_histogram true w1 h1 b1 b1' w2 h2 b2 b2' x1 y1 x2 y2); auto; try lia. intros v _. apply (HC (fun g => g =? v)).
Qed.

Lemma tone_calls T w h b b' : In T tones -> dims_ok w h -> w * h <= 1073741824 -> image (w * h * 4) b ->
  calls T w h b b' -> exact_image (w * h * 4) b'.
Proof.
  intros IT D Hn I C. destruct IT as [<-|[<-|[<-|[<-|[]]]]].
  - apply (calls_inv' _ _ _ _ _ _ (fun s p Hwf Hp => grayscale_ok w h s p b Hwf D Hn Hp I)) in C. apply C.
  - apply (calls_inv' _ _ _ _ _ _ (fun s p Hwf Hp => grayscale_stretch_ok w h s p b Hwf D Hn Hp I)) in C. apply C.
  - apply (calls_inv' _ _ _ _ _ _ (fun s p Hwf Hp => otsu_ok w h s p b false Hwf D ltac:(lia) Hp I)) in C. apply C.
  - apply (calls_inv' _ _ _ _ _ _ (fun s p Hwf Hp => otsu_ok w h s p b true Hwf D ltac:(lia) Hp I)) in C. apply C.
Qed.

(** Turning and changing tones commute. *)
Lemma turn_tone o T w h b b1 c1 d d1 : In T tones -> dims_ok w h -> w * h <= 1073741824 -> image (w * h * 4) b ->
  calls (turn o) w h b b1 -> calls T (tw o w h) (th o w h) b1 c1 ->
  calls T w h b d -> calls (turn o) w h d d1 -> same_bytes (w * h * 4) c1 d1.
Proof.
  intros IT D Hn I C1 C2 C3 C4. pose proof (dims_turn o w h D) as D'.
  assert (Xd : exact_image (w * h * 4) d) by (eapply tone_calls; eauto).
  destruct (turn_calls o w h b b1 D I C1) as [X1 V1]. destruct (turn_calls o w h d d1 D (proj2 Xd) C4) as [X4 V4].
  rewrite <- (tw_th o w h) in Hn |- *.
  pose proof D' as (_ & _ & Hw' & Hh' & _). apply same_bytes_pix; auto. intros x y c Hx Hy Hc.
  rewrite V4 by first [assumption | split; assumption].
  apply (tone_same T w h b d (tw o w h) (th o w h) b1 c1); auto; try (rewrite tw_th in *; lia).
  - exact (proj2 X1).
  - intros Q. symmetry. apply turn_counts; auto.
  - apply from_inside. split; auto.
  - split; auto.
  - symmetry. apply turn_gray; auto. split; auto.
Qed.

(** ** Edges *)
Lemma near_mirror n i : 0 < n -> nearest_in n (n - 1 - i) = n - 1 - nearest_in n i.
Proof. unfold nearest_in. lia. Qed.

Lemma strength_turn o w h G G' x y : 0 < w -> 0 < h ->
  (forall x y, inside (tw o w h) (th o w h) x y -> G' x y = G (from_x o w h x y) (from_y o w h x y)) ->
  strength2 (tw o w h) (th o w h) G' x y = strength2 w h G (from_x o w h x y) (from_y o w h x y).
Proof.
  intros Hw Hh H.
  assert (A : forall dx dy, around (tw o w h) (th o w h) G' x y dx dy =
    G (from_x o w h (nearest_in (tw o w h) (x + dx)) (nearest_in (th o w h) (y + dy)))
      (from_y o w h (nearest_in (tw o w h) (x + dx)) (nearest_in (th o w h) (y + dy)))).
  { intros dx dy. unfold around. apply H. unfold inside, nearest_in, tw, th. destruct (swaps o); lia. }
  unfold strength2, grad_x, grad_y. cbv zeta. rewrite !A. unfold around.
  destruct o; cbn [from_x from_y tw th swaps];
    repeat match goal with |- context [nearest_in ?n (?n - 1 - ?a + ?d)] =>
      replace (n - 1 - a + d) with (n - 1 - (a - d)) by ring; rewrite (near_mirror n (a - d)) by assumption end;
    repeat match goal with |- context [?a - -1] => replace (a - -1) with (a + 1) by ring end; rewrite ?Z.sub_0_r, ?Z.add_0_r;
    repeat match goal with |- context [?a + -1] => replace (a + -1) with (a - 1) by ring end; ring.
Qed.

Lemma extremes_unique w h G lo hi lo' hi' : extremes w h G lo hi -> extremes w h G lo' hi' -> lo = lo' /\ hi = hi'.
Proof.
  intros ((x1 & y1 & A1 & A2 & A3) & (x2 & y2 & B1 & B2 & B3) & C) ((x1' & y1' & A1' & A2' & A3') & (x2' & y2' & B1' & B2' & B3') & C').
  pose proof (C x1' y1' A1' A2'). pose proof (C x2' y2' B1' B2'). pose proof (C' x1 y1 A1 A2). pose proof (C' x2 y2 B1 B2). lia.
Qed.

Lemma extremes_turn o w h G G' lo hi : 0 < w -> 0 < h ->
  (forall x y, inside (tw o w h) (th o w h) x y -> G' x y = G (from_x o w h x y) (from_y o w h x y)) ->
  extremes w h G lo hi -> extremes (tw o w h) (th o w h) G' lo hi.
Proof.
  intros Hw Hh H (A & B & C).
  assert (K : forall v, (exists x y, 0 <= x < w /\ 0 <= y < h /\ strength2 w h G x y = v) ->
    exists x y, 0 <= x < tw o w h /\ 0 <= y < th o w h /\ strength2 (tw o w h) (th o w h) G' x y = v).
  { intros v (x & y & Hx & Hy & E). destruct (from_undo o w h x y (conj Hx Hy)) as ([I1 I2] & E1 & E2).
    eexists _, _. split; [exact I1|]. split; [exact I2|]. rewrite (strength_turn o w h G) by auto. rewrite E1, E2. exact E. }
  split; [auto|]. split; [auto|]. intros x y Hx Hy. rewrite (strength_turn o w h G) by auto.
  destruct (from_inside o w h x y (conj Hx Hy)). apply C; auto.
Qed.

(** The edges of a turned picture are the turned edges. *)
Lemma turn_edges o w h b b1 e e1 : 0 < w < 2147483648 -> 0 < h < 2147483648 -> w * h * 8 <= SIZE_MAX -> image (w * h * 4) b ->
  calls (turn o) w h b b1 ->
  calls (fun w h p => sobel_edge_detection w h 4 p) (tw o w h) (th o w h) b1 e1 ->
  calls (fun w h p => sobel_edge_detection w h 4 p) w h b e ->
  forall x y, inside (tw o w h) (th o w h) x y -> pix e1 (tw o w h) 1 x y 0 = pix e w 1 (from_x o w h x y) (from_y o w h x y) 0.
Proof.
  intros Hw Hh Hs I C1 C2 C3 x y IN.
  assert (D : dims_ok w h) by (unfold dims_ok, is_u32, U32; unfold SIZE_MAX in *; lia).
  destruct (turn_calls o w h b b1 D I C1) as [X1 _]. pose proof (turn_gray o w h b b1 D I C1) as TG.
  assert (Hw' : 0 < tw o w h < 2147483648) by (unfold tw; destruct (swaps o); auto).
  assert (Hh' : 0 < th o w h < 2147483648) by (unfold th; destruct (swaps o); auto).
  assert (Hs' : tw o w h * th o w h * 8 <= SIZE_MAX) by (rewrite tw_th; auto).
  apply (calls_inv' _ _ _ _ _ _ (fun s p Hwf Hp => sobel_rgba_exact _ _ 4 s p b1 Hw' Hh' Hs' ltac:(lia) Hwf Hp (proj2 X1))) in C2.
  apply (calls_inv' _ _ _ _ _ _ (fun s p Hwf Hp => sobel_rgba_exact _ _ 4 s p b Hw Hh Hs ltac:(lia) Hwf Hp I)) in C3.
  destruct C2 as (_ & lo1 & hi1 & E1 & V1). destruct C3 as (_ & lo & hi & E & V).
  pose proof (extremes_turn o w h _ _ lo hi ltac:(lia) ltac:(lia) TG E) as E'.
  destruct (extremes_unique _ _ _ _ _ _ _ E1 E') as [-> ->].
  destruct IN as [Hx Hy]. destruct (from_inside o w h x y (conj Hx Hy)) as [Fx Fy].
  rewrite V1, V by auto. rewrite (strength_turn o w h (fun x y => gray_at b w x y)) by (auto; lia). reflexivity.
Qed.

(** ** Histogram *)
Lemma level_count_px b w h c v : 0 < w -> 0 < h ->
  level_count b (w * h) 4 c v = count_px w h (fun x y => match pix b w 4 x y c with Some u => u =? v | None => false end).
Proof.
  intros Hw Hh. unfold level_count, count_px. apply count_ext. intros i Hi. destruct (rm_decomp w h i) as (A & B & C); auto.
  unfold pix. rewrite <- C. reflexivity.
Qed.

Lemma gray_picture_px b w h : 0 < w -> 0 < h ->
  gray_picture b (w * h) 4 <-> forall x y, inside w h x y -> pix b w 4 x y 1 = pix b w 4 x y 0 /\ pix b w 4 x y 2 = pix b w 4 x y 0.
Proof.
  intros Hw Hh. unfold gray_picture, pix. split.
  - intros [H|[_ H]]; [discriminate|]. intros x y [Hx Hy]. rewrite Z.add_0_r. apply H. apply rm_bound; auto.
  - intros H. right. split; auto. intros i Hi. destruct (rm_decomp w h i) as (A & B & C); auto.
    specialize (H (i mod w) (i / w) (conj A B)). rewrite <- C, Z.add_0_r in H. exact H.
Qed.

Lemma largest_unique k m m' f f' : (forall c v, 0 <= c < k -> 0 <= v < 256 -> f c v = f' c v) ->
  largest k m f -> largest k m' f' -> m = m'.
Proof.
  intros E (A & c & v & Hc & Hv & B) (A' & c' & v' & Hc' & Hv' & B').
  pose proof (A c' v' Hc' Hv'). pose proof (A' c v Hc Hv). rewrite E in * by auto. lia.
Qed.

Lemma bars_unique scale f f' gray gray' ch bars bars' : (forall c v, 0 <= c < 4 -> 0 <= v < 256 -> f c v = f' c v) -> (gray <-> gray') ->
  gray \/ ~ gray ->
  hist_bars_by scale f gray ch bars -> hist_bars_by scale f' gray' ch bars' ->
  forall c x, 0 <= c < 3 -> 0 <= x < 256 -> bars c x = bars' c x.
Proof.
  intros E EG DG (A & B) (A' & B') c x Hc Hx.
  assert (CT : 1 <= counted ch <= 3) by (unfold counted; destruct (3 <=? ch); lia).
  destruct DG as [G|G].
  - destruct (A G) as (m & L & V). destruct (A' (proj1 EG G)) as (m' & L' & V').
    assert (m = m') as <- by (eapply largest_unique; [|exact L|exact L']; intros; apply E; lia).
    rewrite V, V', E by (auto; lia). reflexivity.
  - destruct (B G) as (m & L & V). destruct (B' (fun H => G (proj2 EG H))) as (m' & L' & V').
    assert (m = m') as <- by (eapply largest_unique; [|exact L|exact L']; intros; apply E; lia).
    rewrite V, V', E by (auto; lia). reflexivity.
Qed.

Lemma gray_dec b n : 0 <= n -> gray_picture b n 4 \/ ~ gray_picture b n 4.
Proof.
  intros Hn. unfold gray_picture.
  assert (OD : forall a c : option Z, a = c \/ a <> c) by (intros a c; destruct (ltac:(decide equality; apply Z.eq_dec) : {a = c} + {a <> c}); auto).
  assert (K : forall m, 0 <= m -> (forall i, 0 <= i < m -> bget b (i * 4 + 1) = bget b (i * 4) /\ bget b (i * 4 + 2) = bget b (i * 4)) \/
    exists i, 0 <= i < m /\ ~ (bget b (i * 4 + 1) = bget b (i * 4) /\ bget b (i * 4 + 2) = bget b (i * 4))).
  { apply Z_nat_ind; [left; intros; lia|]. intros m Hm [IH|(i & Hi & N)]; [|right; exists i; split; auto; lia].
    destruct (OD (bget b (m * 4 + 1)) (bget b (m * 4))) as [E1|E1]; [|right; exists m; split; [lia|tauto]].
    destruct (OD (bget b (m * 4 + 2)) (bget b (m * 4))) as [E2|E2]; [|right; exists m; split; [lia|tauto]].
    left. intros i Hi. destruct (Z.eq_dec i m) as [->|]; auto. apply IH. lia. }
  destruct (K n Hn) as [Y|(i & Hi & N)]; [left; auto|]. right. intros [H|[_ H]]; [discriminate|]. apply N. auto.
Qed.

Lemma sized_inv f w h b w' h' b' (P : Z -> Z -> buf Z -> Prop) :
  (forall s p, wf s -> holds s p b -> returns_sized s (f w h p s) P) -> calls_sized f w h b w' h' b' -> P w' h' b'.
Proof.
  intros H (s & p & q & s' & Hwf & Hp & E & d & -> & Hd).
  destruct (H s p Hwf Hp) as (q' & w1 & h1 & s1 & E' & _ & K). rewrite E in E'. injection E' as <- <- <- <-.
  destruct K as (_ & (b1 & Hb & K) & _). rewrite Hd in Hb. injection Hb as <-. exact K.
Qed.

(** A turned picture has the same histogram. *)
Lemma turn_histogram o w h b b1 ow oh ow1 oh1 cw ch c cw1 ch1 c1 : dims_ok w h -> image (w * h * 4) b ->
  calls (turn o) w h b b1 ->
  calls_sized (fun w h p => generate_histogram w h 4 p ow oh) w h b cw ch c ->
  calls_sized (fun w h p => generate_histogram w h 4 p ow1 oh1) (tw o w h) (th o w h) b1 cw1 ch1 c1 ->
  cw1 = cw /\ ch1 = ch /\ same_bytes (cw * ch * 4) c c1.
Proof.
  intros D I T C C1. destruct (turn_calls o w h b b1 D I T) as [X V].
  pose proof (dims_turn o w h D) as D'. pose proof D as (_ & _ & Hw & Hh & Hs). pose proof D' as (_ & _ & Hw' & Hh' & Hs').
  apply (sized_inv _ _ _ _ _ _ _ _ (fun s p Hwf Hp => histogram_general w h 4 s p b ow oh Hwf Hw Hh ltac:(lia) Hs Hp I)) in C.
  apply (sized_inv _ _ _ _ _ _ _ _ (fun s p Hwf Hp => histogram_general _ _ 4 s p b1 ow1 oh1 Hwf Hw' Hh' ltac:(lia) Hs' Hp (proj2 X))) in C1.
  destruct C as (-> & -> & bars & CH & B). destruct C1 as (-> & -> & bars1 & CH1 & B1).
  do 2 (split; [reflexivity|]). apply (same_bytes_pix 256 200); try lia. intros x y k Hx Hy Hk.
  assert (GE : gray_picture b (w * h) 4 <-> gray_picture b1 (tw o w h * th o w h) 4).
  { rewrite !gray_picture_px by auto. split; intros G x' y' IN.
    - rewrite !V by (auto; lia). apply G. apply from_inside; auto.
    - destruct (from_undo o w h x' y' IN) as (J & E1 & E2). specialize (G _ _ J).
      rewrite !V, E1, E2 in G by (auto; lia). exact G. }
  assert (LE : forall k v, 0 <= k < 4 -> level_count b1 (tw o w h * th o w h) 4 k v = level_count b (w * h) 4 k v).
  { intros k' v Hk'. rewrite !level_count_px by auto.
    rewrite <- (count_turn o w h (fun x y => match pix b w 4 x y k' with Some u => u =? v | None => false end) Hw Hh).
    apply count_px_ext; auto. intros x' y' IN. rewrite V by auto. reflexivity. }
  pose proof (bars_unique _ _ _ _ _ 4 bars1 bars (fun k v Hk Hv => f_equal wrapped (LE k v Hk)) (iff_sym GE)
    (match gray_dec b (w * h) ltac:(nia) with or_introl G => or_introl (proj1 GE G) | or_intror G => or_intror (fun H => G (proj2 GE H)) end) B1 B) as BU.
  destruct (proj2 CH x y (conj Hx Hy)) as [A3 A]. destruct (proj2 CH1 x y (conj Hx Hy)) as [A3' A'].
  destruct (Z.eq_dec k 3) as [->|]; [congruence|]. rewrite A, A', BU by lia. reflexivity.
Qed.

(** ** Borders *)

Lemma borders_inv w h ch hex bw b w1 h1 b1 cr cg cb :
  0 < w -> 0 < h -> (ch = 1 \/ ch = 3 \/ ch = 4) -> 0 < bw -> (w + 2 * bw) * (h + 2 * bw) * ch <= 4294967296 ->
  image (w * h * ch) b -> parse_hex_color hex = Ok (cr, cg, cb) -> borders hex ch bw w h b w1 h1 b1 ->
  exists col, bordered w h ch bw col b w1 h1 b1.
Proof.
  intros Hw Hh Hch Hbw Hs Hi Hx (s & p & q & s' & Hwf & Hp & E & d & -> & Hd).
  destruct (add_border_ok w h ch hex bw s p b 0 0 cr cg cb Hwf Hw Hh Hch Hbw Hs Hp Hi Hx) as (col & _ & q' & w' & h' & s1 & E' & _ & K).
  rewrite E in E'. injection E' as <- <- <- <-. destruct K as (_ & (b' & Hb & K) & _). rewrite Hd in Hb. injection Hb as <-. eauto.
Qed.

Lemma same_bytes_px w h ch b b' : 0 < w -> 0 < h -> 0 < ch ->
  (forall x y c, 0 <= x < w -> 0 <= y < h -> 0 <= c < ch -> pix b' w ch x y c = pix b w ch x y c) -> same_bytes (w * h * ch) b b'.
Proof.
  intros Hw Hh Hc H j Hj. destruct (px_decomp w h ch j) as (x & y & c & Hx & Hy & Hk & ->); auto. apply (H x y c); auto.
Qed.

Lemma crop_border w h ch hex bw b w1 h1 b1 b2 cr cg cb :
  0 < w -> 0 < h -> (ch = 1 \/ ch = 3 \/ ch = 4) -> 0 < bw -> (w + 2 * bw) * (h + 2 * bw) * ch <= 4294967296 ->
  image (w * h * ch) b -> parse_hex_color hex = Ok (cr, cg, cb) ->
  borders hex ch bw w h b w1 h1 b1 -> crop_calls w1 h1 ch bw bw w h b1 b2 -> same_bytes (w * h * ch) b b2.
Proof.
  intros Hw Hh Hch Hbw Hs Hi Hx B C.
  destruct (borders_inv w h ch hex bw b w1 h1 b1 cr cg cb) as (col & -> & -> & X & V); auto.
  assert (A : (w + 2 * bw) * 3 <= 4294967296 /\ (h + 2 * bw) * 3 <= 4294967296) by nia.
  apply crop_calls_inv in C; unfold is_u32; try lia; [|unfold SIZE_MAX; lia|exact (proj2 X)].
  destruct C as (_ & _ & _ & _ & _ & _ & P). apply same_bytes_px; try lia. intros x y c Hx' Hy Hc.
  rewrite P, V by (unfold inside; lia). replace (_ && _ && _ && _) with true by lia. f_equal; lia.
Qed.

Lemma crop_border' w h ch hex bw b w1 h1 b1 b2 cr cg cb :
  0 < w -> 0 < h -> (ch = 1 \/ ch = 3 \/ ch = 4) -> 0 < bw -> (w + 2 * bw) * (h + 2 * bw) * ch <= 4294967296 ->
  image (w * h * ch) b -> parse_hex_color hex = Ok (cr, cg, cb) ->
  borders hex ch bw w h b w1 h1 b1 -> calls (fun w h p => crop w h ch p bw bw (w - 2 * bw) (h - 2 * bw)) w1 h1 b1 b2 -> same_bytes (w * h * ch) b b2.
Proof.
  intros Hw Hh Hch Hbw Hs Hi Hx B C. eapply crop_border; eauto.
  destruct (borders_inv _ _ _ _ _ _ _ _ _ _ _ _ Hw Hh Hch Hbw Hs Hi Hx B) as (col & E1 & E2 & _).
  destruct C as (s & p & q & s' & X1 & X2 & X3 & X4). exists s, p, q, s'. split; auto. split; auto. split; auto.
  cbv beta in X3. rewrite E1, E2 in *. replace (w + 2 * bw - 2 * bw) with w in X3 by lia. replace (h + 2 * bw - 2 * bw) with h in X3 by lia. exact X3.
Qed.
Lemma trim_border w h ch hex bw b w1 h1 b1 w2 h2 b2 cr cg cb :
  0 < w -> 0 < h -> (ch = 1 \/ ch = 3 \/ ch = 4) -> 0 < bw -> (w + 2 * bw) * (h + 2 * bw) * ch <= 4294967296 ->
  image (w * h * ch) b -> parse_hex_color hex = Ok (cr, cg, cb) ->
  borders hex ch bw w h b w1 h1 b1 -> trims w1 h1 ch b1 w2 h2 b2 ->
  (forall x, x = 0 \/ x = w - 1 -> exists y c, 0 <= y < h /\ 0 <= c < ch /\ pix b w ch x y c <> pix b1 w1 ch 0 0 c) ->
  (forall y, y = 0 \/ y = h - 1 -> exists x c, 0 <= x < w /\ 0 <= c < ch /\ pix b w ch x y c <> pix b w ch 0 y c) ->
  w2 = w /\ h2 = h /\ same_bytes (w * h * ch) b b2.
Proof.
  intros Hw Hh Hch Hbw Hs Hi Hx B T NC NR.
  destruct (borders_inv w h ch hex bw b w1 h1 b1 cr cg cb) as (col & -> & -> & X & V); auto.
  set (w1 := w + 2 * bw) in *. set (h1 := h + 2 * bw) in *.
  assert (A : w1 * 3 <= 4294967296 /\ h1 * 3 <= 4294967296) by (unfold w1, h1 in *; nia).
  destruct (trims_inv w1 h1 ch b1 w2 h2 b2) as (l & r & t & bt & TB & BX); auto; try lia; [exact (proj2 X)|].
  assert (VO : forall x y c, 0 <= x < w1 -> 0 <= y < h1 -> 0 <= c < ch -> ~ (bw <= x < bw + w /\ bw <= y < bw + h) -> pix b1 w1 ch x y c = Some (col c)).
  { intros x y c H1 H2 H3 N. rewrite V by (unfold inside; auto). replace (_ && _ && _ && _) with false by lia. reflexivity. }
  assert (VI : forall x y c, 0 <= x < w -> 0 <= y < h -> 0 <= c < ch -> pix b1 w1 ch (bw + x) (bw + y) c = pix b w ch x y c).
  { intros x y c H1 H2 H3. rewrite V by (unfold inside, w1, h1; lia). replace (_ && _ && _ && _) with true by lia. f_equal; lia. }
  assert (DEF : forall x y c, 0 <= x < w -> 0 <= y < h -> 0 <= c < ch -> exists v, pix b w ch x y c = Some v).
  { intros x y c H1 H2 H3. destruct Hi as [_ Hi]. destruct (Hi ((y * w + x) * ch + c)) as (v & E & _); [|exists v; exact E].
    pose proof (rm_bound w h x y H1 H2). nia. }
  assert (TB' : trim_box 0 b1 w1 h1 ch bw (bw + w) bw (bw + h)).
  { unfold trim_box. do 4 (split; [unfold w1, h1; lia|]).
    assert (CU : forall x, 0 <= x < bw \/ bw + w <= x < w1 -> col_uniform 0 b1 w1 h1 ch x).
    { intros x Hx' y Hy c Hc. unfold pixv. rewrite !VO by (unfold w1, h1 in *; lia). lia. }
    assert (CN : forall x, x = 0 \/ x = w - 1 -> ~ col_uniform 0 b1 w1 h1 ch (bw + x)).
    { intros x Hx' U. destruct (NC x Hx') as (y & c & Hy & Hc & N). specialize (U (bw + y) ltac:(unfold h1; lia) c Hc).
      unfold pixv in U. rewrite VI in U by lia. rewrite VO in U by (unfold w1, h1; lia). rewrite VO in N by (unfold w1, h1; lia).
      destruct (DEF x y c) as [v E]; auto; [lia|]. rewrite E in *. apply N. f_equal. lia. }
    assert (RU : forall y, 0 <= y < bw \/ bw + h <= y < h1 -> row_uniform 0 b1 w1 ch bw (bw + w) y).
    { intros y Hy x Hx' c Hc. unfold pixv. rewrite !VO by (unfold w1, h1 in *; lia). lia. }
    assert (RN : forall y, y = 0 \/ y = h - 1 -> ~ row_uniform 0 b1 w1 ch bw (bw + w) (bw + y)).
    { intros y Hy U. destruct (NR y Hy) as (x & c & Hx' & Hc & N). specialize (U (bw + x) ltac:(lia) c Hc).
      unfold pixv in U. rewrite VI in U by lia. pose proof (VI 0 y c ltac:(lia) ltac:(lia) Hc) as V0. rewrite Z.add_0_r in V0. rewrite V0 in U. clear V0.
      destruct (DEF x y c) as [v E]; auto; [lia|]. destruct (DEF 0 y c) as [v' E']; auto; try lia. rewrite E, E' in *. apply N. f_equal. lia. }
    split; [intros; apply CU; lia|]. split; [right; rewrite <- (Z.add_0_r bw); apply CN; auto|].
    split; [intros; apply CU; lia|]. split; [right; replace (bw + w - 1) with (bw + (w - 1)) by lia; apply CN; auto|].
    split; [intros; apply RU; lia|]. split; [right; pose proof (RN 0 (or_introl eq_refl)) as R0; rewrite Z.add_0_r in R0; exact R0|].
    split; [intros; apply RU; lia|]. right; replace (bw + h - 1) with (bw + (h - 1)) by lia; apply RN; auto. }
  destruct (trim_box_unique _ _ _ _ _ _ _ _ _ _ _ _ _ TB TB') as (-> & -> & -> & ->).
  destruct BX as (-> & -> & _ & P). replace (bw + w - bw) with w in * by lia. replace (bw + h - bw) with h in * by lia.
  do 2 (split; [reflexivity|]). apply same_bytes_px; try lia. intros. rewrite P by auto. apply VI; auto.
Qed.

(** ** Morphology *)

Lemma dilates_inv w h r b b' : morph_ok w h r -> image (w * h) b -> dilates r w h b b' -> bw_picture w h b' (dilated w h r (white b w)).
Proof. intros O I C. exact (calls_inv' _ _ _ _ _ _ (fun s p Hwf Hp => dilation_ok w h r s p b Hwf O Hp I) C). Qed.
Lemma erodes_inv w h r b b' : morph_ok w h r -> image (w * h) b -> erodes r w h b b' -> bw_picture w h b' (eroded w h r (white b w)).
Proof. intros O I C. exact (calls_inv' _ _ _ _ _ _ (fun s p Hwf Hp => erosion_ok w h r s p b Hwf O Hp I) C). Qed.

Lemma disk_le r r' dx dy : 0 <= r <= r' -> disk r dx dy -> disk r' dx dy.
Proof. unfold disk. nia. Qed.

Lemma dilation_radius w h r r' b d d' : morph_ok w h r -> morph_ok w h r' -> r <= r' -> image (w * h) b ->
  dilates r w h b d -> dilates r' w h b d' -> forall x y, inside w h x y -> white d w x y -> white d' w x y.
Proof.
  intros O O' Hr I C C' x y IN W. apply dilates_inv in C; auto. apply dilates_inv in C'; auto.
  apply (proj2 C' x y IN). apply (proj2 C x y IN) in W. destruct W as (x' & y' & A & B & W). exists x', y'. split; auto. split; auto.
  apply (disk_le r); auto. unfold morph_ok in O. lia.
Qed.
Lemma erosion_radius w h r r' b e e' : morph_ok w h r -> morph_ok w h r' -> r <= r' -> image (w * h) b ->
  erodes r w h b e -> erodes r' w h b e' -> forall x y, inside w h x y -> white e' w x y -> white e w x y.
Proof.
  intros O O' Hr I C C' x y IN W. apply erodes_inv in C; auto. apply erodes_inv in C'; auto.
  apply (proj2 C x y IN). apply (proj2 C' x y IN) in W. intros x' y' D. apply W.
  apply (disk_le r); auto. unfold morph_ok in O. lia.
Qed.

(** Negative: black where [b] is white, white elsewhere *)
Lemma white_dec b w x y : white b w x y \/ ~ white b w x y.
Proof. unfold white. destruct (pix b w 1 x y 0) as [v|]; [|right; discriminate]. destruct (Z.eq_dec v 255) as [->|N]; [auto|]. right. congruence. Qed.

Lemma disk_box r dx dy : 0 <= r -> disk r dx dy -> Z.abs dx <= r /\ Z.abs dy <= r.
Proof. unfold disk. nia. Qed.

Lemma erosion_dual w h r b n e d : morph_ok w h r -> image (w * h) b -> image (w * h) n ->
  (forall x y, inside w h x y -> white n w x y <-> ~ white b w x y) ->
  erodes r w h b e -> dilates r w h n d ->
  forall x y, r <= x < w - r -> r <= y < h - r -> white e w x y <-> ~ white d w x y.
Proof.
  intros O Ib In N C C' x y Hx Hy. apply erodes_inv in C; auto. apply dilates_inv in C'; auto.
  assert (Hr : 0 <= r) by (unfold morph_ok in O; lia).
  assert (IN : inside w h x y) by (unfold inside; lia).
  rewrite (proj1 (proj2 C x y IN)), (proj1 (proj2 C' x y IN)). split.
  - intros E (x' & y' & J & D & W). apply (N x' y' J) in W. apply W. apply E. exact D.
  - intros ND x' y' D. pose proof (disk_box r _ _ Hr D) as [Bx By].
    assert (J : inside w h x' y') by (unfold inside; lia). split; auto.
    destruct (white_dec b w x' y') as [W|W]; auto. exfalso. apply ND. exists x', y'. split; auto. split; auto. apply N; auto.
Qed.

(** If every white pixel of [a] survives the erosion of [b], then the dilation of [a] adds nothing to [b]. *)
Lemma dilation_erosion w h r a b d e : morph_ok w h r -> image (w * h) a -> image (w * h) b ->
  dilates r w h a d -> erodes r w h b e ->
  ((forall x y, inside w h x y -> white a w x y -> white e w x y) -> forall x y, inside w h x y -> white d w x y -> white b w x y) /\
  ((forall x y, inside w h x y -> white d w x y -> white b w x y) ->
   forall x y, r <= x < w - r -> r <= y < h - r -> white a w x y -> white e w x y).
Proof.
  intros O Ia Ib C C'. apply dilates_inv in C; auto. apply erodes_inv in C'; auto.
  assert (Hr : 0 <= r) by (unfold morph_ok in O; lia). split; intros H x y.
  - intros IN W. apply (proj2 C x y IN) in W. destruct W as (x' & y' & J & D & W). apply H in W; auto.
    apply (proj2 C' x' y' J) in W. apply (W x y). apply disk_sym'. exact D.
  - intros Hx Hy W. assert (IN : inside w h x y) by (unfold inside; lia). apply (proj2 C' x y IN). intros x' y' D.
    pose proof (disk_box r _ _ Hr D) as [Bx By]. assert (J : inside w h x' y') by (unfold inside; lia). split; auto.
    apply H; auto. apply (proj2 C x' y' J). exists x, y. split; auto. split; auto. apply disk_sym'. exact D.
Qed.

Lemma disk_add r1 r2 x1 y1 x2 y2 : 0 <= r1 -> 0 <= r2 -> disk r1 x1 y1 -> disk r2 x2 y2 -> disk (r1 + r2 + 1) (x1 + x2) (y1 + y2).
Proof.
  unfold disk. intros H1 H2 D1 D2.
  assert (CS : 4 * (x1 * x2 + y1 * y2) <= (2 * r1 + 1) * (2 * r2 + 1)).
  { destruct (Z_le_gt_dec (x1 * x2 + y1 * y2) 0) as [N|P]; [nia|].
    apply Z.square_le_simpl_nonneg; [nia|].
    apply Z.le_trans with ((4 * (x1 * x1 + y1 * y1)) * (4 * (x2 * x2 + y2 * y2))).
    - assert (0 <= (x1 * y2 - x2 * y1) * (x1 * y2 - x2 * y1)) by apply Z.square_nonneg. nia.
    - apply Z.le_trans with (((2 * r1 + 1) * (2 * r1 + 1)) * ((2 * r2 + 1) * (2 * r2 + 1))); [|nia].
      apply Z.mul_le_mono_nonneg; nia. }
  nia.
Qed.

(** Two dilations reach no farther than one with the sum of the radii, plus one. *)
Lemma dilation_twice w h r1 r2 b d1 d2 d : morph_ok w h r1 -> morph_ok w h r2 -> morph_ok w h (r1 + r2 + 1) -> image (w * h) b ->
  dilates r1 w h b d1 -> dilates r2 w h d1 d2 -> dilates (r1 + r2 + 1) w h b d ->
  forall x y, inside w h x y -> white d2 w x y -> white d w x y.
Proof.
  intros O1 O2 O I C1 C2 C x y IN W. apply dilates_inv in C1; auto. assert (I1 : image (w * h) d1) by apply C1.
  apply dilates_inv in C2; auto. apply dilates_inv in C; auto. apply (proj2 C x y IN).
  apply (proj2 C2 x y IN) in W. destruct W as (x1 & y1 & J1 & D1 & W). apply (proj2 C1 x1 y1 J1) in W.
  destruct W as (x2 & y2 & J2 & D2 & W). exists x2, y2. split; auto. split; auto.
  replace (x2 - x) with ((x2 - x1) + (x1 - x)) by ring. replace (y2 - y) with ((y2 - y1) + (y1 - y)) by ring.
  apply disk_add; auto; unfold morph_ok in *; lia.
Qed.

(** ** Drawing *)

Lemma circle_exact w h ch hex radius cx cy s p b cr cg cb :
  draw_ok w h ch radius cx cy -> holds s p b -> w * h * ch <= blen b -> parse_hex_color hex = Ok (cr, cg, cb) ->
  exists gv, draw_luma cr cg cb = Ok gv /\ rewrites s p (draw_circle w h ch (Some hex) radius cx cy p s)
    (painted w h ch (colf ch cr cg cb gv) (fun x y => ring (int_part radius) (x - int_part cx) (y - int_part cy)) b).
Proof.
  intros Hok Hb HL Hhex.
  destruct (draw_shape_exact draw_circle_points circ1 w h ch hex radius cx cy s p b cr cg cb) as (gv & E & _ & R); auto.
  { intros L v Pt setp cx' cy' x y data Hs Hd H1 H2 H3 H4. apply (circle_points_ok L); auto; lia. }
  exists gv. split; auto.
Qed.
Lemma disk_exact w h ch hex radius cx cy s p b cr cg cb :
  draw_ok w h ch radius cx cy -> holds s p b -> w * h * ch <= blen b -> parse_hex_color hex = Ok (cr, cg, cb) ->
  exists gv, draw_luma cr cg cb = Ok gv /\ rewrites s p (draw_disk w h ch (Some hex) radius cx cy p s)
    (painted w h ch (colf ch cr cg cb gv) (fun x y => filled (int_part radius) (x - int_part cx) (y - int_part cy)) b).
Proof.
  intros Hok Hb HL Hhex.
  destruct (draw_shape_exact fill_disk_lines dsk1 w h ch hex radius cx cy s p b cr cg cb) as (gv & E & _ & R); auto.
  { intros L v Pt setp cx' cy' x y data Hs Hd H1 H2 H3 H4. apply (fill_disk_ok L); auto. }
  exists gv. split; auto.
Qed.

Lemma draw_exact f : In f drawings -> exists shape : Z -> Z -> Z -> Prop, forall w h ch hex radius cx cy s p b cr cg cb,
  draw_ok w h ch radius cx cy -> holds s p b -> w * h * ch <= blen b -> parse_hex_color hex = Ok (cr, cg, cb) ->
  exists gv, draw_luma cr cg cb = Ok gv /\ rewrites s p (f w h ch (Some hex) radius cx cy p s)
    (painted w h ch (colf ch cr cg cb gv) (fun x y => shape (int_part radius) (x - int_part cx) (y - int_part cy)) b).
Proof. intros [<-|[<-|[]]]; [exists ring; exact circle_exact|exists filled; exact disk_exact]. Qed.

Lemma draw_run (f : Z -> Z -> Z -> option cstr -> f64 -> f64 -> f64 -> ptr -> M unit) w h ch hex radius cx cy s p b cr cg cb s1 b1 (shape : Z -> Z -> Z -> Prop) gv :
  draw_luma cr cg cb = Ok gv ->
  (exists gv, draw_luma cr cg cb = Ok gv /\ rewrites s p (f w h ch (Some hex) radius cx cy p s)
    (painted w h ch (colf ch cr cg cb gv) (fun x y => shape (int_part radius) (x - int_part cx) (y - int_part cy)) b)) ->
  f w h ch (Some hex) radius cx cy p s = Ok (tt, s1) -> holds s1 p b1 ->
  painted w h ch (colf ch cr cg cb gv) (fun x y => shape (int_part radius) (x - int_part cx) (y - int_part cy)) b b1.
Proof.
  intros Eg (gv' & Eg' & d & s' & b' & -> & E & M & P & _) R (d1 & Ed & M1). rewrite Eg in Eg'. injection Eg' as <-.
  rewrite E in R. injection R as <-. injection Ed as <-. rewrite M in M1. injection M1 as <-. exact P.
Qed.

Lemma opt_stable (a b : option Z) : ~ ~ a = b -> a = b.
Proof. intros H. destruct (ltac:(decide equality; apply Z.eq_dec) : {a = b} + {a <> b}); auto. contradiction. Qed.

(** All bytes agree. *)
Lemma painted_ext w h ch (b1 b2 : buf Z) : 0 < w -> 0 < h -> 0 < ch ->
  (forall x y c, inside w h x y -> 0 <= c < ch -> pix b1 w ch x y c = pix b2 w ch x y c) ->
  (forall j, j < 0 \/ w * h * ch <= j -> bget b1 j = bget b2 j) -> forall j, bget b1 j = bget b2 j.
Proof.
  intros Hw Hh Hc H O j. destruct (Z_lt_le_dec j 0) as [N|N]; [apply O; auto|].
  destruct (Z_lt_le_dec j (w * h * ch)) as [M|M]; [|apply O; auto].
  destruct (px_decomp w h ch j) as (x & y & c & Hx & Hy & Hk & ->); auto. apply H; auto. split; auto.
Qed.

(** Painting two shapes in one colour: the order is irrelevant. *)
Lemma painted_comm w h ch col P Q b b1 b2 b3 b4 : 0 < w -> 0 < h -> 0 < ch ->
  painted w h ch col P b b1 -> painted w h ch col Q b1 b2 -> painted w h ch col Q b b3 -> painted w h ch col P b3 b4 ->
  blen b2 = blen b4 /\ forall j, bget b2 j = bget b4 j.
Proof.
  intros Hw Hh Hc (L1 & A1 & B1) (L2 & A2 & B2) (L3 & A3 & B3) (L4 & A4 & B4). split; [congruence|].
  apply (painted_ext w h ch); auto; [|intros j Hj; rewrite B2, B1, B4, B3 by auto; reflexivity].
  intros x y c IN Hk. apply opt_stable. intros K.
  assert (NP : ~ P x y). { intros p. apply K. rewrite (proj1 (A4 x y c IN Hk) p).
    assert (NQ : ~ Q x y). { intros q. apply K. rewrite (proj1 (A2 x y c IN Hk) q), (proj1 (A4 x y c IN Hk) p). reflexivity. }
    rewrite (proj2 (A2 x y c IN Hk) NQ). apply (proj1 (A1 x y c IN Hk) p). }
  assert (NQ : ~ Q x y). { intros q. apply K. rewrite (proj1 (A2 x y c IN Hk) q), (proj2 (A4 x y c IN Hk) NP). symmetry. apply (proj1 (A3 x y c IN Hk) q). }
  apply K. rewrite (proj2 (A2 x y c IN Hk) NQ), (proj2 (A1 x y c IN Hk) NP), (proj2 (A4 x y c IN Hk) NP), (proj2 (A3 x y c IN Hk) NQ). reflexivity.
Qed.

(** Painting a shape, then one that contains it, is painting the latter. *)
Lemma painted_sub w h ch col (P Q : Z -> Z -> Prop) b b1 b2 b3 : 0 < w -> 0 < h -> 0 < ch -> (forall x y, P x y -> Q x y) ->
  painted w h ch col P b b1 -> painted w h ch col Q b1 b2 -> painted w h ch col Q b b3 ->
  blen b2 = blen b3 /\ forall j, bget b2 j = bget b3 j.
Proof.
  intros Hw Hh Hc S (L1 & A1 & B1) (L2 & A2 & B2) (L3 & A3 & B3). split; [congruence|].
  apply (painted_ext w h ch); auto; [|intros j Hj; rewrite B2, B1, B3 by auto; reflexivity].
  intros x y c IN Hk. apply opt_stable. intros K.
  assert (NQ : ~ Q x y). { intros q. apply K. rewrite (proj1 (A2 x y c IN Hk) q). symmetry. apply (proj1 (A3 x y c IN Hk) q). }
  assert (NP : ~ P x y) by auto.
  apply K. rewrite (proj2 (A2 x y c IN Hk) NQ), (proj2 (A1 x y c IN Hk) NP), (proj2 (A3 x y c IN Hk) NQ). reflexivity.
Qed.
Lemma painted_twice w h ch col (P : Z -> Z -> Prop) b b1 b2 : 0 < w -> 0 < h -> 0 < ch ->
  painted w h ch col P b b1 -> painted w h ch col P b1 b2 -> blen b2 = blen b1 /\ forall j, bget b2 j = bget b1 j.
Proof. intros Hw Hh Hc A B. apply (painted_sub w h ch col P P b b1 b2 b1); auto. Qed.

Lemma painted_len w h ch col P b b' : painted w h ch col P b b' -> blen b' = blen b.
Proof. intros (L & _). exact L. Qed.

Lemma draw_order f g w h ch hex r cx cy r' cx' cy' s p b cr cg cb s1 b1 s2 b2 s3 b3 s4 b4 :
  In f drawings -> In g drawings -> draw_ok w h ch r cx cy -> draw_ok w h ch r' cx' cy' ->
  holds s p b -> w * h * ch <= blen b -> parse_hex_color hex = Ok (cr, cg, cb) ->
  f w h ch (Some hex) r cx cy p s = Ok (tt, s1) -> holds s1 p b1 -> g w h ch (Some hex) r' cx' cy' p s1 = Ok (tt, s2) -> holds s2 p b2 ->
  g w h ch (Some hex) r' cx' cy' p s = Ok (tt, s3) -> holds s3 p b3 -> f w h ch (Some hex) r cx cy p s3 = Ok (tt, s4) -> holds s4 p b4 ->
  blen b2 = blen b4 /\ forall j, bget b2 j = bget b4 j.
Proof.
  intros If Ig D D' Hp HL Hx R1 P1 R2 P2 R3 P3 R4 P4.
  destruct (draw_exact f If) as (F & EF). destruct (draw_exact g Ig) as (G & EG).
  destruct (EF w h ch hex r cx cy s p b cr cg cb D Hp HL Hx) as (gv & Egv & _).
  pose proof (draw_run f w h ch hex r cx cy s p b cr cg cb s1 b1 F gv Egv (EF _ _ _ _ _ _ _ _ _ _ _ _ _ D Hp HL Hx) R1 P1) as Q1.
  pose proof (painted_len _ _ _ _ _ _ _ Q1) as L1. assert (HL1 : w * h * ch <= blen b1) by lia.
  pose proof (draw_run g w h ch hex r' cx' cy' s1 p b1 cr cg cb s2 b2 G gv Egv (EG _ _ _ _ _ _ _ _ _ _ _ _ _ D' P1 HL1 Hx) R2 P2) as Q2.
  pose proof (draw_run g w h ch hex r' cx' cy' s p b cr cg cb s3 b3 G gv Egv (EG _ _ _ _ _ _ _ _ _ _ _ _ _ D' Hp HL Hx) R3 P3) as Q3.
  pose proof (painted_len _ _ _ _ _ _ _ Q3) as L3. assert (HL3 : w * h * ch <= blen b3) by lia.
  pose proof (draw_run f w h ch hex r cx cy s3 p b3 cr cg cb s4 b4 F gv Egv (EF _ _ _ _ _ _ _ _ _ _ _ _ _ D P3 HL3 Hx) R4 P4) as Q4.
  unfold draw_ok in D. eapply painted_comm; [| | |exact Q1|exact Q2|exact Q3|exact Q4]; lia.
Qed.

Lemma draw_twice f w h ch hex r cx cy s p b cr cg cb s1 b1 s2 b2 :
  In f drawings -> draw_ok w h ch r cx cy -> holds s p b -> w * h * ch <= blen b -> parse_hex_color hex = Ok (cr, cg, cb) ->
  f w h ch (Some hex) r cx cy p s = Ok (tt, s1) -> holds s1 p b1 -> f w h ch (Some hex) r cx cy p s1 = Ok (tt, s2) -> holds s2 p b2 ->
  blen b2 = blen b1 /\ forall j, bget b2 j = bget b1 j.
Proof.
  intros If D Hp HL Hx R1 P1 R2 P2. destruct (draw_exact f If) as (F & EF).
  destruct (EF w h ch hex r cx cy s p b cr cg cb D Hp HL Hx) as (gv & Egv & _).
  pose proof (draw_run f w h ch hex r cx cy s p b cr cg cb s1 b1 F gv Egv (EF _ _ _ _ _ _ _ _ _ _ _ _ _ D Hp HL Hx) R1 P1) as Q1.
  pose proof (painted_len _ _ _ _ _ _ _ Q1) as L1. assert (HL1 : w * h * ch <= blen b1) by lia.
  pose proof (draw_run f w h ch hex r cx cy s1 p b1 cr cg cb s2 b2 F gv Egv (EF _ _ _ _ _ _ _ _ _ _ _ _ _ D P1 HL1 Hx) R2 P2) as Q2.
  unfold draw_ok in D. eapply painted_twice; [| | |exact Q1|exact Q2]; lia.
Qed.

Lemma radius_nonneg w h ch radius cx cy : draw_ok w h ch radius cx cy -> 0 <= int_part radius.
Proof.
  intros (_ & _ & _ & Fr & _ & _ & Hneg & _). unfold int_part. rewrite (btrunc_R radius _ (isd_finite _ Fr)).
  rewrite (dlt_R radius d0 _ _ (isd_finite _ Fr) isd_d0) in Hneg. destruct (Raux.Rlt_bool_spec (BinarySingleNaN.B2R radius) 0) as [|C]; [discriminate|].
  rewrite Raux.Ztrunc_floor by auto. apply Raux.Zfloor_lub. exact C.
Qed.

Lemma circle_disk w h ch hex r cx cy s p b cr cg cb s1 b1 s2 b2 s3 b3 :
  draw_ok w h ch r cx cy -> holds s p b -> w * h * ch <= blen b -> parse_hex_color hex = Ok (cr, cg, cb) ->
  draw_circle w h ch (Some hex) r cx cy p s = Ok (tt, s1) -> holds s1 p b1 ->
  draw_disk w h ch (Some hex) r cx cy p s1 = Ok (tt, s2) -> holds s2 p b2 ->
  draw_disk w h ch (Some hex) r cx cy p s = Ok (tt, s3) -> holds s3 p b3 ->
  blen b2 = blen b3 /\ forall j, bget b2 j = bget b3 j.
Proof.
  intros D Hp HL Hx R1 P1 R2 P2 R3 P3.
  pose proof (fun s b Hp HL => circle_exact w h ch hex r cx cy s p b cr cg cb D Hp HL Hx) as EF.
  pose proof (fun s b Hp HL => disk_exact w h ch hex r cx cy s p b cr cg cb D Hp HL Hx) as EG. cbv beta in EF, EG.
  destruct (EF s b Hp HL) as (gv & Egv & _).
  pose proof (draw_run _ w h ch hex r cx cy s p b cr cg cb s1 b1 ring gv Egv (EF s b Hp HL) R1 P1) as Q1.
  pose proof (painted_len _ _ _ _ _ _ _ Q1) as L1. assert (HL1 : w * h * ch <= blen b1) by lia.
  pose proof (draw_run _ w h ch hex r cx cy s1 p b1 cr cg cb s2 b2 filled gv Egv (EG s1 b1 P1 HL1) R2 P2) as Q2.
  pose proof (draw_run _ w h ch hex r cx cy s p b cr cg cb s3 b3 filled gv Egv (EG s b Hp HL) R3 P3) as Q3.
  pose proof (radius_nonneg _ _ _ _ _ _ D) as Hr. unfold draw_ok in D.
  eapply painted_sub; [| | | |exact Q1|exact Q2|exact Q3]; try lia. intros x y. apply ring_filled. exact Hr.
Qed.
