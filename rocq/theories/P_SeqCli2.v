From Coq Require Import Reals String.
From Verif Require Import Base BaseLemmas F Heap Spec M_Color M_Parse M_Cli M_Apply Spec_Blur Spec_Draw Spec_Cli Spec_Parse Spec_Apply P_Apply Spec_Rel Spec_Seq P_Rel P_Seq Spec_SeqCli P_SeqCli.
From Verif Require Import M_Exif M_Main Spec_Main P_Main.
From Verif Require Import Spec_Morph Spec_Trim.
Local Open Scope string_scope.
Local Open Scope list_scope.
Local Open Scope Z_scope.

(** ** The eight maps as motions of the plane *)
Lemma px_to p w h x y : px p w h (to_x p w h x y) (to_y p w h x y) = x /\ py p w h (to_x p w h x y) (to_y p w h x y) = y.
Proof. unfold px, py, to_x, to_y. destruct p as [[] [] []]; cbn; lia. Qed.
Lemma to_inside p w h x y : inside w h x y -> inside (pw p w h) (ph p w h) (to_x p w h x y) (to_y p w h x y).
Proof. unfold inside, pw, ph, to_x, to_y. destruct p as [[] [] []]; cbn; lia. Qed.
Lemma disk_moved p w h r x y x' y' : disk r (px p w h x' y' - px p w h x y) (py p w h x' y' - py p w h x y) <-> disk r (x' - x) (y' - y).
Proof. unfold disk, px, py. destruct p as [[] [] []]; cbn [sw mx my]; cbv zeta; split; intros; nia. Qed.
Lemma clamp_moved p w h x y : 0 < w -> 0 < h ->
  px p w h (clampZ (pw p w h) x) (clampZ (ph p w h) y) = clampZ w (px p w h x y) /\
  py p w h (clampZ (pw p w h) x) (clampZ (ph p w h) y) = clampZ h (py p w h x y).
Proof. unfold clampZ, px, py, pw, ph. destruct p as [[] [] []]; cbn [sw mx my]; cbv zeta; lia. Qed.
Lemma clamp_inside w h x y : 0 < w -> 0 < h -> inside w h (clampZ w x) (clampZ h y).
Proof. unfold inside, clampZ. lia. Qed.

Section Sets.
Variables (p : pose) (w h : Z).
Definition carried (A A' : Z -> Z -> Prop) : Prop :=
  forall x y, inside (pw p w h) (ph p w h) x y -> (A' x y <-> A (px p w h x y) (py p w h x y)).
Lemma dilated_carried r A A' : carried A A' -> carried (dilated w h r A) (dilated (pw p w h) (ph p w h) r A').
Proof.
  intros H x y IN. split.
  - intros (x' & y' & I' & D & K). exists (px p w h x' y'), (py p w h x' y'). split; [now apply px_inside|]. split; [now apply disk_moved|]. now apply H.
  - intros (x' & y' & I' & D & K). destruct (px_to p w h x' y') as [E1 E2]. exists (to_x p w h x' y'), (to_y p w h x' y').
    split; [now apply to_inside|]. split; [apply (disk_moved p w h); rewrite E1, E2; exact D|]. apply H; [now apply to_inside|]. rewrite E1, E2. exact K.
Qed.
Lemma eroded_carried r A A' : carried A A' -> carried (eroded w h r A) (eroded (pw p w h) (ph p w h) r A').
Proof.
  intros H x y IN. split.
  - intros K x' y' D. destruct (px_to p w h x' y') as [E1 E2]. destruct (K (to_x p w h x' y') (to_y p w h x' y')) as [I' K'].
    { apply (disk_moved p w h). rewrite E1, E2. exact D. }
    pose proof (px_inside _ _ _ _ _ I') as J. apply (H _ _ I') in K'. rewrite E1, E2 in J, K'. auto.
  - intros K x' y' D. apply (disk_moved p w h) in D. destruct (K _ _ D) as [I' K']. apply (to_inside p) in I'.
    destruct (to_px p w h x' y') as [E1 E2]. rewrite E1, E2 in I'. split; [exact I'|]. now apply H.
Qed.
Lemma rep_carried r A A' : 0 < w -> 0 < h -> carried A A' -> carried (eroded_rep w h r A) (eroded_rep (pw p w h) (ph p w h) r A').
Proof.
  intros Hw Hh H x y IN.
  assert (Q : 0 < pw p w h /\ 0 < ph p w h) by (unfold pw, ph; destruct (sw p); auto). split.
  - intros K x' y' D. destruct (px_to p w h x' y') as [E1 E2]. pose proof (disk_moved p w h r x y (to_x p w h x' y') (to_y p w h x' y')) as DM.
    rewrite E1, E2 in DM. apply DM in D. apply K in D. apply H in D; [|now apply clamp_inside].
    destruct (clamp_moved p w h (to_x p w h x' y') (to_y p w h x' y') Hw Hh) as [-> ->] in D. rewrite E1, E2 in D. exact D.
  - intros K x' y' D. apply (disk_moved p w h) in D. apply K in D. apply H; [now apply clamp_inside|].
    destruct (clamp_moved p w h x' y' Hw Hh) as [-> ->]. exact D.
Qed.
End Sets.

(** ** Pictures *)
Lemma moved_gray p w h b w1 h1 b1 : moved p w h b w1 h1 b1 -> forall x y, inside w1 h1 x y -> gray_at b1 w1 x y = gray_at b w (px p w h x y) (py p w h x y).
Proof. intros (_ & _ & V) x y IN. unfold gray_at, pixv. rewrite !V by (auto; lia). reflexivity. Qed.
Lemma moved_opaque p w h b w1 h1 b1 : moved p w h b w1 h1 b1 -> forall x y g, inside w1 h1 x y ->
  opaque_gray b w (px p w h x y) (py p w h x y) g -> opaque_gray b1 w1 x y g.
Proof. intros (_ & _ & V) x y g IN. unfold opaque_gray. rewrite !V by (auto; lia). auto. Qed.
Lemma moved_carried p w h b w1 h1 b1 v : moved p w h b w1 h1 b1 ->
  carried p w h (fun x y => gray_at b w x y = v) (fun x y => gray_at b1 w1 x y = v).
Proof. intros M x y IN. pose proof M as (E1 & E2 & _). rewrite (moved_gray _ _ _ _ _ _ _ M) by (rewrite E1, E2; auto). reflexivity. Qed.
Lemma moved_bw p w h P P' d w1 h1 d1 : moved p w h d w1 h1 d1 -> carried p w h P P' -> exact_image (w1 * h1 * 4) d1 ->
  black_white w h d P -> black_white w1 h1 d1 P'.
Proof.
  intros M C X [_ B]. pose proof M as (E1 & E2 & _). split; [exact X|]. intros x y IN. pose proof IN as IN'. rewrite E1, E2 in IN'.
  pose proof (C x y IN') as K. destruct (B _ _ (px_inside _ _ _ _ _ IN')) as [B1 B2].
  split; intros H; eapply moved_opaque; eauto; [apply B1|apply B2]; tauto.
Qed.

(** A picture can be moved by every map. *)
Lemma moved_exists p w h b : 0 < w -> 0 < h -> exact_image (w * h * 4) b ->
  exists b1, exact_image (pw p w h * ph p w h * 4) b1 /\ moved p w h b (pw p w h) (ph p w h) b1.
Proof.
  intros Hw Hh [_ [_ Ib]]. assert (Q : 0 < pw p w h /\ 0 < ph p w h) by (unfold pw, ph; destruct (sw p); auto). destruct Q as [Qw Qh].
  set (W := pw p w h) in *. set (H := ph p w h) in *.
  pose (f := fun i => let k := i / 4 in pix b w 4 (px p w h (k mod W) (k / W)) (py p w h (k mod W) (k / W)) (i mod 4)).
  exists (mkbuf (W * H * 4) f).
  assert (G : forall i, 0 <= i < W * H * 4 -> bget (mkbuf (W * H * 4) f) i = f i).
  { intros i Hi. reflexivity. }
  assert (K : forall i, 0 <= i < W * H * 4 -> inside W H (i / 4 mod W) (i / 4 / W)).
  { intros i Hi. assert (0 <= i / 4 < W * H) by (split; [apply Z.div_pos; lia|apply Z.div_lt_upper_bound; lia]).
    split; [apply Z.mod_pos_bound; auto|]. split; [apply Z.div_pos; lia|apply Z.div_lt_upper_bound; lia]. }
  split.
  - split; [reflexivity|]. split; [cbn; lia|]. intros i Hi. rewrite G by auto. pose proof (px_inside p w h _ _ (K i Hi)) as [Hx Hy].
    pose proof (Z.mod_pos_bound i 4 ltac:(lia)). unfold f, pix. apply Ib. nia.
  - split; [reflexivity|]. split; [reflexivity|]. intros x y c [Hx Hy] Hc. unfold pix at 1. rewrite G by nia. unfold f.
    replace (((y * W + x) * 4 + c) / 4) with (y * W + x) by (apply Z.div_unique with c; lia).
    replace (((y * W + x) * 4 + c) mod 4) with c by (apply Z.mod_unique with (y * W + x); lia).
    replace ((y * W + x) / W) with y by (apply Z.div_unique with x; lia).
    replace ((y * W + x) mod W) with x by (apply Z.mod_unique with y; lia). reflexivity.
Qed.

(** ** Operations that treat all directions alike *)
Lemma border_x p w h k x y : px p (w + 2 * k) (h + 2 * k) x y = px p w h (x - k) (y - k) + k /\ py p (w + 2 * k) (h + 2 * k) x y = py p w h (x - k) (y - k) + k.
Proof. unfold px, py. destruct p as [[] [] []]; cbn [sw mx my]; cbv zeta; lia. Qed.
Lemma pw_border p w h k : pw p (w + 2 * k) (h + 2 * k) = pw p w h + 2 * k /\ ph p (w + 2 * k) (h + 2 * k) = ph p w h + 2 * k.
Proof. unfold pw, ph. destruct (sw p); auto. Qed.
Definition in_box (w h k x y : Z) : bool := (k <=? x) && (x <? k + w) && (k <=? y) && (y <? k + h).
Lemma in_box_inside w h k x y : in_box w h k x y = true <-> inside w h (x - k) (y - k).
Proof. unfold in_box, inside. rewrite !andb_true_iff, !Z.leb_le, !Z.ltb_lt. lia. Qed.
Lemma in_box_moved p w h k x y : in_box (pw p w h) (ph p w h) k x y = in_box w h k (px p w h (x - k) (y - k) + k) (py p w h (x - k) (y - k) + k).
Proof.
  apply eq_true_iff_eq. rewrite !in_box_inside. replace (px p w h (x - k) (y - k) + k - k) with (px p w h (x - k) (y - k)) by lia.
  replace (py p w h (x - k) (y - k) + k - k) with (py p w h (x - k) (y - k)) by lia. split; [apply px_inside|].
  intros H. apply (to_inside p) in H. destruct (to_px p w h (x - k) (y - k)) as [E1 E2]. rewrite E1, E2 in H. exact H.
Qed.

Lemma even_named o : evenhanded o -> named o "grayscale" \/ named o "erode" \/ named o "dilate" \/ named o "close" \/ named o "open" \/ named o "border".
Proof. intros (n & N & I). cbn in I. destruct I as [<-|[<-|[<-|[<-|[<-|[<-|[]]]]]]]; auto 7. Qed.

Ltac only_named N := try (exfalso; match goal with N' : named _ _ |- _ => eapply names_differ; [exact N|exact N'|vm_compute; discriminate] end).

Lemma moved_size p w h b w1 h1 b1 : moved p w h b w1 h1 b1 -> 0 < w -> 0 < h -> 0 < w1 /\ 0 < h1.
Proof. intros (-> & -> & _) Hw Hh. unfold pw, ph. destruct (sw p); auto. Qed.

(** The effect on a moved picture is the moved effect. *)
Lemma effect_carried atof o p w h b w1 h1 b1 w2 h2 d w3 h3 d3 : evenhanded o -> 0 < w -> 0 < h ->
  moved p w h b w1 h1 b1 -> effect atof o w h b w2 h2 d -> moved p w2 h2 d w3 h3 d3 -> exact_image (w3 * h3 * 4) d3 ->
  effect atof o w1 h1 b1 w3 h3 d3.
Proof.
  intros Ev Hw Hh M E M' X. pose proof M as (S1 & S2 & _). pose proof M' as (S1' & S2' & V'). apply even_named in Ev.
  destruct Ev as [N|[N|[N|[N|[N|N]]]]]; destruct E; only_named N.
  - rewrite S1', S2', <- S1, <- S2 in *. clear S1' S2'. apply does_grayscale; [exact N|]. split; [exact X|]. intros x y IN.
    rewrite (moved_gray _ _ _ _ _ _ _ M) by auto. eapply moved_opaque; [exact M'|exact IN|]. destruct H0 as [_ K]. apply K.
    rewrite S1, S2 in IN. now apply px_inside.
  - rewrite S1', S2', <- S1, <- S2 in *. clear S1' S2'. eapply does_erode; [exact N|eassumption|]. eapply moved_bw; [exact M'| |exact X|eassumption].
    rewrite S1, S2. apply eroded_carried. rewrite <- S1. eapply moved_carried; exact M.
  - rewrite S1', S2', <- S1, <- S2 in *. clear S1' S2'. eapply does_dilate; [exact N|eassumption|]. eapply moved_bw; [exact M'| |exact X|eassumption].
    rewrite S1, S2. apply dilated_carried. rewrite <- S1. eapply moved_carried; exact M.
  - rewrite S1', S2', <- S1, <- S2 in *. clear S1' S2'. eapply does_close; [exact N|eassumption|]. eapply moved_bw; [exact M'| |exact X|eassumption].
    rewrite S1, S2. apply rep_carried; auto. apply dilated_carried. rewrite <- S1. eapply moved_carried; exact M.
  - rewrite S1', S2', <- S1, <- S2 in *. clear S1' S2'. eapply does_open; [exact N|eassumption|]. eapply moved_bw; [exact M'| |exact X|eassumption].
    rewrite S1, S2. apply dilated_carried. apply eroded_carried. rewrite <- S1. eapply moved_carried; exact M.
  - destruct H4 as (Ew & Eh & _ & V). eapply does_border; try eassumption. clear H H0 H1. destruct M as (_ & _ & VM).
    generalize dependent (int_part x). intros k -> -> V. destruct (pw_border p w h k) as [Q1 Q2]. rewrite Q1 in S1'. rewrite Q2 in S2'.
    split; [lia|]. split; [lia|]. split; [exact X|]. intros u v c IN Hc. rewrite V' by auto.
    assert (IN' : inside (w + 2 * k) (h + 2 * k) (px p (w + 2 * k) (h + 2 * k) u v) (py p (w + 2 * k) (h + 2 * k) u v))
      by (apply px_inside; rewrite Q1, Q2, <- S1', <- S2'; exact IN).
    rewrite V by auto. clear IN'. destruct (border_x p w h k u v) as [-> ->].
    fold (in_box w h k (px p w h (u - k) (v - k) + k) (py p w h (u - k) (v - k) + k)).
    rewrite <- in_box_moved, <- S1, <- S2. fold (in_box w1 h1 k u v). destruct (in_box w1 h1 k u v) eqn:EB; [|reflexivity].
    apply in_box_inside in EB. rewrite VM by auto. f_equal; lia.
Qed.

(** The effect is determined by the picture. *)
Lemma opaque_same b w x y b' w' x' y' g : opaque_gray b w x y g -> opaque_gray b' w' x' y' g -> forall c, 0 <= c < 4 -> pix b' w' 4 x' y' c = pix b w 4 x y c.
Proof. intros A B c Hc. symmetry. eapply opaque_pix; eauto. Qed.
Lemma bw_same w h d d' P : black_white w h d P -> black_white w h d' P -> forall x y c, inside w h x y -> 0 <= c < 4 -> pix d' w 4 x y c = pix d w 4 x y c.
Proof.
  intros [_ B] [_ B'] x y c IN Hc. apply opt_stable. intros Hn. destruct (B x y IN) as [B1 B2], (B' x y IN) as [B1' B2'].
  assert (~ P x y) as NP by (intros HP; apply Hn; exact (opaque_same _ _ _ _ _ _ _ _ _ (B1 HP) (B1' HP) c Hc)).
  apply Hn. exact (opaque_same _ _ _ _ _ _ _ _ _ (B2 NP) (B2' NP) c Hc).
Qed.
Definition idp : pose := mkpose false false false.
Lemma moved_same w h d d' : (forall x y c, inside w h x y -> 0 <= c < 4 -> pix d' w 4 x y c = pix d w 4 x y c) -> moved idp w h d w h d'.
Proof. intros H. split; [reflexivity|]. split; [reflexivity|]. intros x y c IN Hc. cbn. auto. Qed.
Lemma effect_same atof o w h b w1 h1 d w2 h2 d' : evenhanded o ->
  effect atof o w h b w1 h1 d -> effect atof o w h b w2 h2 d' -> moved idp w1 h1 d w2 h2 d'.
Proof.
  intros Ev E E'. apply even_named in Ev. destruct Ev as [N|[N|[N|[N|[N|N]]]]]; destruct E; only_named N; destruct E'; only_named N.
  - apply moved_same. intros x y c IN Hc. destruct H0 as [_ K], H2 as [_ K']. eapply opaque_same; eauto.
  - apply moved_same. assert (r0 = r) by congruence. subst r0. eapply bw_same; eauto.
  - apply moved_same. assert (r0 = r) by congruence. subst r0. eapply bw_same; eauto.
  - apply moved_same. assert (r0 = r) by congruence. subst r0. eapply bw_same; eauto.
  - apply moved_same. assert (r0 = r) by congruence. subst r0. eapply bw_same; eauto.
  - assert (x0 = x) by congruence. assert (hex0 = hex) by congruence. subst x0 hex0.
    destruct H4 as (-> & -> & _ & V), H10 as (-> & -> & _ & V'). apply moved_same. intros u v c IN Hc. rewrite V, V' by auto.
    assert (col0 c = col c) as ->; [|reflexivity].
    rewrite H2 in H8. injection H8 as <- <- <-. unfold drawn_colour in *. cbn in H3, H9.
    assert (c = 0 \/ c = 1 \/ c = 2 \/ c = 3) as [->|[->|[->| ->]]] by lia; intuition congruence.
Qed.
(** A border of at least one pixel *)
Definition sound (o : pipeline_op) : Prop := evenhanded o /\ (named o "border" -> forall x, op_p1 o = Some x -> 0 < int_part x).
Lemma sound_exact atof o w h b w1 h1 d : sound o -> 0 < w -> 0 < h -> effect atof o w h b w1 h1 d -> 0 < w1 /\ 0 < h1 /\ exact_image (w1 * h1 * 4) d.
Proof.
  intros [Ev So] Hw Hh E. apply even_named in Ev. destruct Ev as [N|[N|[N|[N|[N|N]]]]]; destruct E; only_named N;
    try (split; [auto|]; split; [auto|]; match goal with H : gray_levels _ _ _ _ |- _ => exact (proj1 H) | H : black_white _ _ _ _ |- _ => exact (proj1 H) end).
  destruct H4 as (-> & -> & X & _). pose proof (So N x H1). split; [lia|]. split; [lia|exact X].
Qed.
Lemma fits_sound atof o w h b : evenhanded o -> fits atof o w h b -> sound o.
Proof.
  intros Ev Ft. split; [exact Ev|]. intros N x Hx.
  destruct Ft; only_named N; try (match goal with I : In ?n _ |- _ => cbn in I; repeat (destruct I as [<-|I]; [only_named N|]); destruct I end).
  assert (x0 = x) by congruence. subst x0. assumption.
Qed.

(** ** Sequences *)
Definition inv (p : pose) : pose := mkpose (sw p) (if sw p then my p else mx p) (if sw p then mx p else my p).
Lemma inv_size p w h : pw (inv p) (pw p w h) (ph p w h) = w /\ ph (inv p) (pw p w h) (ph p w h) = h.
Proof. destruct p as [[] [] []]; split; reflexivity. Qed.
Lemma inv_inv p : inv (inv p) = p. Proof. destruct p as [[] [] []]; reflexivity. Qed.
Lemma moved_back p w h b w1 h1 b1 : moved p w h b w1 h1 b1 -> moved (inv p) w1 h1 b1 w h b.
Proof.
  intros (-> & -> & V). destruct (inv_size p w h) as [E1 E2]. split; [auto|]. split; [auto|]. intros x y c IN Hc.
  assert (T : px (inv p) (pw p w h) (ph p w h) x y = to_x p w h x y /\ py (inv p) (pw p w h) (ph p w h) x y = to_y p w h x y).
  { unfold px, py, to_x, to_y, pw, ph. destruct p as [[] [] []]; cbn; lia. }
  destruct T as [-> ->]. rewrite V by (auto using to_inside). destruct (px_to p w h x y) as [-> ->]. reflexivity.
Qed.

Lemma composed_back atof fs p : Forall sound fs -> forall w h b w1 h1 b1 w2 h2 b2, 0 < w -> 0 < h -> moved p w h b w1 h1 b1 ->
  composed (effect atof) fs w1 h1 b1 w2 h2 b2 -> exists w0 h0 b0, composed (effect atof) fs w h b w0 h0 b0 /\ moved p w0 h0 b0 w2 h2 b2.
Proof.
  induction 1 as [|o fs So _ IH]; intros w h b w1 h1 b1 w2 h2 b2 Hw Hh M Cm; cbn [composed] in *.
  - destruct Cm as (-> & -> & ->). exists w, h, b. auto.
  - destruct Cm as (wa & ha & ba & E & Cm). destruct (moved_size _ _ _ _ _ _ _ M Hw Hh) as [Hw1 Hh1].
    destruct (sound_exact _ _ _ _ _ _ _ _ So Hw1 Hh1 E) as (Ha1 & Ha2 & X).
    destruct (moved_exists (inv p) wa ha ba Ha1 Ha2 X) as (d & Xd & Md).
    pose proof (effect_carried atof o (inv p) _ _ _ _ _ _ _ _ _ _ _ _ (proj1 So) Hw1 Hh1 (moved_back _ _ _ _ _ _ _ M) E Md Xd) as Ed.
    pose proof (moved_back _ _ _ _ _ _ _ Md) as Md'. rewrite inv_inv in Md'. destruct (moved_size _ _ _ _ _ _ _ Md Ha1 Ha2) as [Hd1 Hd2].
    destruct (IH _ _ _ _ _ _ _ _ _ Hd1 Hd2 Md' Cm) as (w0 & h0 & b0 & C0 & M0). exists w0, h0, b0. split; [|exact M0].
    exists (pw (inv p) wa ha), (ph (inv p) wa ha), d. auto.
Qed.
Lemma moved_refl w h b : moved idp w h b w h b. Proof. apply moved_same. auto. Qed.
Lemma composed_same atof fs : Forall sound fs -> forall w h b b' w1 h1 b1 w2 h2 b2, 0 < w -> 0 < h -> moved idp w h b w h b' ->
  composed (effect atof) fs w h b w1 h1 b1 -> composed (effect atof) fs w h b' w2 h2 b2 -> moved idp w1 h1 b1 w2 h2 b2.
Proof.
  induction 1 as [|o fs So _ IH]; intros w h b b' w1 h1 b1 w2 h2 b2 Hw Hh M Cm Cm'; cbn [composed] in *.
  - destruct Cm as (-> & -> & ->), Cm' as (-> & -> & ->). auto.
  - destruct Cm as (wa & ha & ba & E & Cm), Cm' as (wb & hb & bb & E' & Cm').
    destruct (sound_exact _ _ _ _ _ _ _ _ So Hw Hh E) as (Ha1 & Ha2 & X).
    pose proof (effect_carried atof o idp _ _ _ _ _ _ _ _ _ _ _ _ (proj1 So) Hw Hh M E (moved_refl _ _ _) X) as E2.
    pose proof (effect_same atof o _ _ _ _ _ _ _ _ _ (proj1 So) E2 E') as M2. pose proof M2 as (S1 & S2 & _). cbn in S1, S2. subst wb hb.
    eapply IH; [| |exact M2|exact Cm|exact Cm']; auto.
Qed.

Lemma canonical atof ops ts fs : mixture ops ts fs -> forall w h b w1 h1 b1, 0 < w -> 0 < h -> ready atof ops w h b ->
  composed (effect atof) ops w h b w1 h1 b1 -> Forall sound fs /\ exists w0 h0 b0, composed (effect atof) fs w h b w0 h0 b0 /\ moved (pose_after ts) w0 h0 b0 w1 h1 b1.
Proof.
  induction 1 as [|o t ops ts fs St _ IH|o ops ts fs Ev _ IH]; intros w h b w1 h1 b1 Hw Hh R Cm; cbn [composed ready] in *.
  - destruct Cm as (-> & -> & ->). split; [constructor|]. exists w, h, b. split; [auto|apply moved_refl].
  - destruct Cm as (wa & ha & ba & E & Cm). destruct R as [_ R]. pose proof (effect_moved atof o t _ _ _ _ _ _ St E) as M.
    destruct (moved_size _ _ _ _ _ _ _ M Hw Hh) as [Ha1 Ha2]. destruct (IH _ _ _ _ _ _ Ha1 Ha2 (R _ _ _ E) Cm) as (F & w0 & h0 & b0 & C0 & M0).
    split; [exact F|]. destruct (composed_back atof fs (pose_after t) F _ _ _ _ _ _ _ _ _ Hw Hh M C0) as (w' & h' & b' & C' & M').
    exists w', h', b'. split; [exact C'|]. rewrite pose_app. eapply moved_comp; eauto.
  - destruct Cm as (wa & ha & ba & E & Cm). destruct R as [Ft R]. pose proof (fits_sound _ _ _ _ _ Ev Ft) as So.
    destruct (sound_exact _ _ _ _ _ _ _ _ So Hw Hh E) as (Ha1 & Ha2 & X). destruct (IH _ _ _ _ _ _ Ha1 Ha2 (R _ _ _ E) Cm) as (F & w0 & h0 & b0 & C0 & M0).
    split; [constructor; auto|]. exists w0, h0, b0. split; [exists wa, ha, ba; auto|exact M0].
Qed.

Lemma mixture_text ops ts fs orc : mixture ops ts fs -> text_memory ops orc.
Proof.
  intros F o Hin (_ & Hn). exfalso. induction F as [|o' t ops ts fs St _ IH|o' ops ts fs Ev _ IH]; cbn in Hin; [tauto| |].
  - destruct Hin as [->|Hin]; [|tauto]. destruct St as [N|N|a k N _ _ _ _]; destruct Hn as [Hn|[Hn|[Hn|Hn]]]; only_named N.
  - destruct Hin as [->|Hin]; [|tauto]. apply even_named in Ev. destruct Ev as [N|[N|[N|[N|[N|N]]]]]; destruct Hn as [Hn|[Hn|[Hn|Hn]]]; only_named N.
Qed.

Lemma pipelines_agree : forall atof exp atan2 asin pow2 fuel identity ops ops' ts ts' fs w h b w1 h1 b1 w2 h2 b2,
  exp_ok exp -> 1073741825 < Z.of_nat fuel -> usual w h -> image (w * h * 4) b -> ops <> [] -> ops' <> [] ->
  ready atof ops w h b -> ready atof ops' w h b ->
  mixture ops ts fs -> mixture ops' ts' fs -> sheet_after ts = sheet_after ts' ->
  calls_sized (fun w h p => execute_pipeline (apply_operation atof exp atan2 asin pow2 fuel identity) w h ops p) w h b w1 h1 b1 ->
  calls_sized (fun w h p => execute_pipeline (apply_operation atof exp atan2 asin pow2 fuel identity) w h ops' p) w h b w2 h2 b2 ->
  w1 = w2 /\ h1 = h2 /\ same_bytes (w1 * h1 * 4) b1 b2.
Proof.
  intros atof exp atan2 asin pow2 fuel identity ops ops' ts ts' fs w h b w1 h1 b1 w2 h2 b2 He Hf U I Hne Hne' R R' X X' ES C C'.
  assert (K : forall l t (g : list pipeline_op) wa ha ba, l <> [] -> ready atof l w h b -> mixture l t g ->
    calls_sized (fun w h p => execute_pipeline (apply_operation atof exp atan2 asin pow2 fuel identity) w h l p) w h b wa ha ba ->
    composed (effect atof) l w h b wa ha ba).
  { intros l t g wa ha ba Nl Rl Xl Cl.
    refine (proj2 (proj2 (sized_inv _ w h b wa ha ba (fun w' h' b' => usual w' h' /\ exact_image (w' * h' * 4) b' /\ composed (effect atof) l w h b w' h' b') _ Cl))).
    intros s p W (i & -> & Hi). apply pipeline_all; auto. eapply mixture_text; eauto. }
  apply (K ops ts fs) in C; auto. apply (K ops' ts' fs) in C'; auto. clear K.
  assert (Hwh : 0 < w /\ 0 < h) by (unfold usual in U; lia). destruct Hwh as [Hw Hh].
  destruct (canonical atof ops ts fs X _ _ _ _ _ _ Hw Hh R C) as (F & w0 & h0 & b0 & C0 & M).
  destruct (canonical atof ops' ts' fs X' _ _ _ _ _ _ Hw Hh R' C') as (_ & w0' & h0' & b0' & C0' & M').
  pose proof (composed_same atof fs F _ _ _ _ _ _ _ _ _ _ Hw Hh (moved_refl w h b) C0 C0') as M0.
  rewrite <- !pose_sheet in ES. apply sheet_inj in ES. rewrite ES in M.
  pose proof (moved_comp _ _ _ _ _ _ _ _ _ _ _ M0 M') as M2.
  replace (comp idp (pose_after ts')) with (pose_after ts') in M2 by (destruct (pose_after ts') as [[] [] []]; reflexivity).
  destruct M as (-> & -> & V), M2 as (-> & -> & V2). split; [reflexivity|]. split; [reflexivity|].
  assert (P0 : 0 < w0 /\ 0 < h0). { clear - F C0 Hw Hh. revert w h b Hw Hh C0. induction F as [|o fs So F IH]; intros w h b Hw Hh C0; cbn [composed] in C0.
    - destruct C0 as (-> & -> & _). auto.
    - destruct C0 as (wa & ha & ba & E & C0). destruct (sound_exact _ _ _ _ _ _ _ _ So Hw Hh E) as (A1 & A2 & _). eapply IH; [exact A1|exact A2|exact C0]. }
  assert (PP : 0 < pw (pose_after ts') w0 h0 /\ 0 < ph (pose_after ts') w0 h0) by (unfold pw, ph; destruct (sw (pose_after ts')); tauto).
  apply P_Geom.same_bytes_pix; [tauto|tauto|]. intros x y c Hx Hy Hc. rewrite V, V2 by (auto; split; auto). reflexivity.
Qed.
