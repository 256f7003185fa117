(** * P_Black: a black picture has only two peaks *)
From Coq Require Import Reals Lra.
From Flocq Require Import Core BinarySingleNaN.
From Verif Require Import Base BaseLemmas F Heap Spec FLemmas HeapLemmas Spec_Morph Spec_Draw Spec_Watershed Spec_Corners Spec_Detect.
From Verif Require Spec_Resize Spec_Blur Spec_Sobel Spec_Foerstner Spec_Peaks.
From Verif Require Import P_Blur P_Watershed P_Flat P_Foerstner P_Detect.
From Verif Require Import M_Watershed M_Foerstner M_Detect.
Local Open Scope Z_scope.

Notation dark := all_black.

Lemma pixv_0 b w ch x y c : pix b w ch x y c = Some 0 -> pixv b w ch x y c = 0.
Proof. unfold pixv. intros ->. reflexivity. Qed.

Lemma dark_gray w h b g : dark w h b -> gray_picture w h b g -> dark w h g.
Proof.
  intros D [_ H] x y c [Hx Hy] Hc. destruct (H x y Hx Hy) as (G0 & G1 & G2 & _).
  assert (E : gray_at b w x y = 0).
  { unfold gray_at. rewrite !pixv_0 by (apply D; [split; auto|lia]). reflexivity. }
  rewrite E in *. assert (c = 0 \/ c = 1 \/ c = 2) as [->|[->| ->]] by lia; auto.
Qed.

Lemma dark_resized w h rx ry b b' : dark w h b -> Spec_Resize.resized w h rx ry b b' ->
  dark (Spec_Resize.out_size w rx) (Spec_Resize.out_size h ry) b'.
Proof.
  intros D [_ H] x y c [Hx Hy] Hc. destruct (H x y Hx Hy) as [_ H'].
  destruct (H' c 0 0 Hc) as (v & E & Hv); [unfold byte; lia|unfold byte; lia| |].
  - intros i j v Hi Hj _ _ E. rewrite D in E by (auto; split; auto). injection E as <-. lia.
  - rewrite E. f_equal. lia.
Qed.

Lemma rsum_0 n : forall lo f, (forall k, lo <= k < lo + Z.of_nat n -> f k = 0%R) -> Spec_Blur.rsum n lo f = 0%R.
Proof.
  induction n as [|n IH]; intros lo f H; [reflexivity|]. cbn [Spec_Blur.rsum]. rewrite H by lia. rewrite IH; [lra|].
  intros k Hk. apply H. lia.
Qed.
Lemma mean_0 r n x d : (forall i, 0 <= i < n -> d i = 0%R) -> Spec_Blur.mean r n x d = 0%R.
Proof.
  intros H. unfold Spec_Blur.mean, Spec_Blur.total. rewrite rsum_0; [unfold Rdiv; ring|].
  intros k _. unfold Spec_Blur.inside. destruct ((0 <=? x + k) && (x + k <? n)) eqn:E; auto. rewrite H by lia. ring.
Qed.

Lemma dark_blurred w h r b b' : dark w h b -> Spec_Blur.blurred w h r b b' -> dark w h b'.
Proof.
  intros D [EI H] x y c [Hx Hy] Hc. destruct (H x y Hx Hy) as [_ H']. destruct (H' c Hc) as (v & E & Hv).
  assert (M : Spec_Blur.mean2 r w h x y (fun x' y' => IZR (pixv b w 4 x' y' c)) = 0%R).
  { unfold Spec_Blur.mean2. apply mean_0. intros j Hj. apply mean_0. intros i Hi.
    rewrite pixv_0 by (apply D; [split; auto|auto]). reflexivity. }
  rewrite M in Hv. rewrite E. f_equal.
  assert (B : byte v).
  { destruct EI as (_ & _ & EI). unfold pix in E. pose proof (rm_bound w h x y Hx Hy).
    destruct (EI ((y * w + x) * 4 + c)) as (v' & E' & B'); [lia|]. congruence. }
  unfold byte in B. assert (v < 1); [|lia]. apply lt_IZR. lra.
Qed.

Lemma dark_edges w h G b' : (forall x y, inside w h x y -> G x y = 0) -> 0 < w -> 0 < h ->
  Spec_Sobel.edges_of w h G b' -> forall x y, inside w h x y -> pix b' w 1 x y 0 = Some 0.
Proof.
  intros D Hw Hh (_ & lo & hi & ((x1 & y1 & _ & _ & E1) & (x2 & y2 & _ & _ & E2) & _) & H & _) x y [Hx Hy].
  assert (Z : forall u v, Spec_Sobel.strength2 w h G u v = 0).
  { intros u v.
    assert (A : forall dx dy, Spec_Sobel.around w h G u v dx dy = 0).
    { intros dx dy. unfold Spec_Sobel.around, Spec_Sobel.nearest_in. apply D. unfold inside. lia. }
    unfold Spec_Sobel.strength2, Spec_Sobel.grad_x, Spec_Sobel.grad_y. cbv zeta. rewrite !A. reflexivity. }
  rewrite Z in E1, E2. destruct (H x y Hx Hy) as (v & E & V & _). rewrite E. f_equal. apply V. congruence.
Qed.

Lemma dark_map w h b ow oh e : dark w h b -> edge_map w h b ow oh e ->
  255 <= ow <= 256 /\ 255 <= oh <= 256 /\ forall x y, inside ow oh x y -> pix e ow 1 x y 0 = Some 0.
Proof.
  intros D (Ew & Eh & Hw & Hh & g & small & soft & edge & Dk & H1 & H2 & H3 & H4 & _ & (_ & H5 & _) & _).
  split; auto. split; auto. intros x y Hi.
  pose proof (dark_gray _ _ _ _ D H1) as D1. pose proof (dark_resized _ _ _ _ _ _ D1 H2) as D2. rewrite <- Ew, <- Eh in D2.
  pose proof (dark_blurred _ _ _ _ _ D2 H3) as D3.
  assert (D4 : pix edge ow 1 x y 0 = Some 0).
  { apply (dark_edges ow oh (fun x y => gray_at soft ow x y) edge); auto; try lia.
    intros u v Hu. unfold gray_at. rewrite !pixv_0 by (apply D3; auto; lia). reflexivity. }
  destruct (H5 x y 0 Hi ltac:(lia)) as [P1 P2].
  destruct (Classical_Prop.classic (Dk (x - ow / 2) (y - oh / 2))) as [C|C]; [apply P1; auto|]. rewrite P2; auto.
Qed.

Lemma dark_frame ow oh e framed mk : (forall x y, inside ow oh x y -> pix e ow 1 x y 0 = Some 0) -> framed_map ow oh e framed mk ->
  forall x y, inside (ow + 2) (oh + 2) x y -> pixv framed (ow + 2) 1 x y 0 = 0.
Proof.
  intros D ((_ & _ & _ & H) & _) x y Hi. apply pixv_0. rewrite H by (auto; lia).
  destruct ((1 <=? x) && (x <? 1 + ow) && (1 <=? y) && (y <? 1 + oh)) eqn:E; [|reflexivity].
  apply D. unfold inside. lia.
Qed.

(** ** The regions: the background is a triangle *)
Definition edge_sum (ow oh : Z) : Z := ((ow + 2) / 2 + (oh + 2) / 2 - 4) / 2.
Definition triangle (ow oh : Z) (L : Z -> Z -> Z) : Prop :=
  forall x y, inside ow oh x y -> (document L x y <-> edge_sum ow oh < x + y).

Lemma half_cases n : 255 <= n <= 256 -> 128 <= (n + 2) / 2 <= 129 /\ n + 1 <= 2 * ((n + 2) / 2) <= n + 2.
Proof. intros H. assert (n = 255 \/ n = 256) as [->| ->] by lia; vm_compute; intuition congruence. Qed.
Lemma edge_cases ow oh : 255 <= ow <= 256 -> 255 <= oh <= 256 -> 126 <= edge_sum ow oh <= 127 /\
  (ow + 2) / 2 + (oh + 2) / 2 - 5 <= 2 * edge_sum ow oh <= (ow + 2) / 2 + (oh + 2) / 2 - 4.
Proof.
  intros H1 H2. assert (ow = 255 \/ ow = 256) as [->| ->] by lia; assert (oh = 255 \/ oh = 256) as [->| ->] by lia;
    vm_compute; intuition congruence.
Qed.

Lemma triangle_of ow oh L : 255 <= ow <= 256 -> 255 <= oh <= 256 ->
  let cx := (ow + 2) / 2 in let cy := (oh + 2) / 2 in
  (forall x y, inside (ow + 2) (oh + 2) x y ->
      (near_b x y < near_c cx cy x y -> L x y = 1) /\
      (near_c cx cy x y < near_b x y -> L x y = 0) /\
      (near_b x y = near_c cx cy x y -> 1 <= x <= cx -> L x y = 1)) -> triangle ow oh L.
Proof.
  intros H1 H2 cx cy H x y Hi. unfold document. specialize (H (x + 1) (y + 1) ltac:(unfold inside in *; lia)).
  destruct (half_cases ow H1) as [X1 X2]. destruct (half_cases oh H2) as [Y1 Y2]. destruct (edge_cases ow oh H1 H2) as [_ E].
  fold cx in X1, X2, E. fold cy in Y1, Y2, E. destruct H as (A & B & C). unfold inside in Hi.
  assert (D : near_b (x + 1) (y + 1) < near_c cx cy (x + 1) (y + 1) \/ near_c cx cy (x + 1) (y + 1) < near_b (x + 1) (y + 1) \/
    (near_b (x + 1) (y + 1) = near_c cx cy (x + 1) (y + 1) /\ 1 <= x + 1 <= cx)).
  { unfold near_b, near_c. clearbody cx cy. clear - Hi X1 Y1. lia. }
  assert (K : edge_sum ow oh < x + y <-> near_c cx cy (x + 1) (y + 1) < near_b (x + 1) (y + 1)).
  { unfold near_b, near_c. clearbody cx cy. clear - Hi X1 Y1 E. lia. }
  rewrite K. destruct D as [D|[D|[D D']]].
  - rewrite (A D). split; [discriminate|]. lia.
  - rewrite (B D). tauto.
  - rewrite (C D D'). split; [discriminate|]. lia.
Qed.

(** ** Closing changes only the two ends of the edge *)
Section Closed.
Variables (ow oh T : Z) (D : Z -> Z -> Prop) (closed : buf Z).
Hypothesis HT : 126 <= T <= 127.
Hypothesis Hw : 255 <= ow <= 256. Hypothesis Hh : 255 <= oh <= 256.
Hypothesis HD : forall x y, inside ow oh x y -> (D x y <-> T < x + y).
Hypothesis HC : bw_picture ow oh closed (eroded_rep ow oh 12 (dilated ow oh 12 D)).

Definition ends (x y : Z) : Prop := (x < 8 /\ T - 8 < y <= T) \/ (y < 8 /\ T - 8 < x <= T).

Lemma far p q : p + q <= T - 17 -> ~ dilated ow oh 12 D p q.
Proof.
  intros Hpq (x & y & Hi & Hd & HDx). apply HD in HDx; auto. unfold disk in Hd.
  set (a := x - p) in *. set (c := y - q) in *. assert (H18 : 18 <= a + c) by lia. clearbody a c. clear -Hd H18.
  pose proof (Z.square_nonneg (a - c)). assert (18 * 18 <= (a + c) * (a + c)) by (apply Z.mul_le_mono_nonneg; lia).
  replace ((a - c) * (a - c)) with (2 * (a * a + c * c) - (a + c) * (a + c)) in H by ring. lia.
Qed.

Lemma closed_is x y : inside ow oh x y -> ~ ends x y -> (Spec_Morph.white closed ow x y <-> T < x + y).
Proof.
  intros Hi HE. destruct HC as [_ H]. destruct (H x y Hi) as [H1 _]. rewrite H1. clear H H1. split.
  - intros HR. destruct (Z_lt_dec T (x + y)); auto. exfalso. unfold ends in HE. unfold inside in Hi.
    destruct (Z_le_dec 9 y).
    + apply (far (clampZ ow (x - 8)) (clampZ oh (y - 9))); [unfold clampZ; lia|]. apply HR. unfold disk.
      replace (x - 8 - x) with (-8) by lia. replace (y - 9 - y) with (-9) by lia. lia.
    + apply (far (clampZ ow (x - 9)) (clampZ oh (y - 8))); [unfold clampZ; lia|]. apply HR. unfold disk.
      replace (x - 9 - x) with (-9) by lia. replace (y - 8 - y) with (-8) by lia. lia.
  - intros HL x' y' Hd. exists x, y. split; auto. split; [|apply HD; auto]. unfold disk in *. unfold inside in Hi.
    set (a := x' - x) in *. set (c := y' - y) in *.
    assert (A1 : Z.abs (x - clampZ ow x') <= Z.abs a) by (unfold clampZ, a; lia).
    assert (A2 : Z.abs (y - clampZ oh y') <= Z.abs c) by (unfold clampZ, c; lia).
    clearbody a c. set (u := x - clampZ ow x') in *. set (v := y - clampZ oh y') in *. clearbody u v.
    assert (u * u <= a * a) by (clear -A1; nia). assert (v * v <= c * c) by (clear -A2; nia). lia.
Qed.

Definition val (s : Z) : Z := if T <? s then 255 else 0.
Lemma closed_val x y : inside ow oh x y -> ~ ends x y -> Spec_Foerstner.gray1 closed ow x y = val (x + y).
Proof.
  intros Hi HE. pose proof (closed_is x y Hi HE) as HW. destruct HC as [_ H]. destruct (H x y Hi) as [_ [H1|H1]];
    unfold Spec_Foerstner.gray1, pixv, val.
  - pose proof (proj1 HW H1). unfold Spec_Morph.white in H1. rewrite H1. replace (T <? x + y) with true by lia. reflexivity.
  - rewrite H1. destruct (Z.ltb_spec T (x + y)); auto. apply HW in H0. unfold Spec_Morph.white in H0. congruence.
Qed.

Definition near_ends (d x y : Z) : Prop := (x < 8 + d /\ T - 8 - d < y <= T + d) \/ (y < 8 + d /\ T - 8 - d < x <= T + d).

Lemma slopes_equal x y : ~ near_ends 1 x y -> Spec_Foerstner.slope_x closed ow oh x y = Spec_Foerstner.slope_y closed ow oh x y.
Proof.
  intros HE. unfold Spec_Foerstner.slope_x, Spec_Foerstner.slope_y, Spec_Foerstner.off_border.
  destruct ((1 <=? x) && (x <? ow - 1) && (1 <=? y) && (y <? oh - 1)) eqn:E; [|reflexivity].
  assert (B : 1 <= x < ow - 1 /\ 1 <= y < oh - 1) by lia. clear E.
  assert (V : forall a c, -1 <= a <= 1 -> -1 <= c <= 1 -> Spec_Foerstner.gray1 closed ow (x + a) (y + c) = val (x + y + (a + c))).
  { intros a c Ha Hc. rewrite closed_val; [f_equal; lia|unfold inside; lia|]. unfold ends. unfold near_ends in HE. lia. }
  replace (x - 1) with (x + -1) by lia. replace (y - 1) with (y + -1) by lia.
  replace (Spec_Foerstner.gray1 closed ow (x + 1) y) with (val (x + y + 1)) by (rewrite <- (Z.add_0_r y) at 2; rewrite V by lia; f_equal; lia).
  replace (Spec_Foerstner.gray1 closed ow (x + -1) y) with (val (x + y + -1)) by (rewrite <- (Z.add_0_r y) at 2; rewrite V by lia; f_equal; lia).
  replace (Spec_Foerstner.gray1 closed ow x (y + 1)) with (val (x + y + 1)) by (rewrite <- (Z.add_0_r x) at 2; rewrite V by lia; f_equal; lia).
  replace (Spec_Foerstner.gray1 closed ow x (y + -1)) with (val (x + y + -1)) by (rewrite <- (Z.add_0_r x) at 2; rewrite V by lia; f_equal; lia).
  rewrite !V by lia. replace (-1 + 1) with (1 + -1) by lia. lia.
Qed.

Lemma zsum_eq n : forall lo f g, (forall i, lo <= i < lo + Z.of_nat n -> f i = g i) -> Spec_Foerstner.zsum n lo f = Spec_Foerstner.zsum n lo g.
Proof.
  induction n as [|n IH]; intros lo f g H; [reflexivity|]. cbn [Spec_Foerstner.zsum]. rewrite H by lia. f_equal. apply IH. intros; apply H; lia.
Qed.
Lemma window_eq x y f g : (forall i j, x - 2 <= i <= x + 2 -> y - 2 <= j <= y + 2 -> f i j = g i j) ->
  Spec_Foerstner.window 2 x y f = Spec_Foerstner.window 2 x y g.
Proof.
  intros H. unfold Spec_Foerstner.window. apply zsum_eq. intros j Hj. apply zsum_eq. intros i Hi. apply H; lia.
Qed.

Lemma quiet x y : ~ near_ends 3 x y -> Spec_Foerstner.one_way closed ow oh 2 x y.
Proof.
  intros HE. right; right.
  assert (S : forall i j, x - 2 <= i <= x + 2 -> y - 2 <= j <= y + 2 ->
    Spec_Foerstner.slope_x closed ow oh i j = Spec_Foerstner.slope_y closed ow oh i j).
  { intros i j Hi Hj. apply slopes_equal. unfold near_ends in *. lia. }
  assert (E1 : Spec_Foerstner.tens_xy closed ow oh 2 x y = Spec_Foerstner.tens_xx closed ow oh 2 x y).
  { apply window_eq. intros i j Hi Hj. rewrite (S i j Hi Hj). reflexivity. }
  assert (E2 : Spec_Foerstner.tens_yy closed ow oh 2 x y = Spec_Foerstner.tens_xx closed ow oh 2 x y).
  { apply window_eq. intros i j Hi Hj. rewrite (S i j Hi Hj). reflexivity. }
  assert (P : 0 <= Spec_Foerstner.tens_xx closed ow oh 2 x y) by (apply window_nonneg; intros; nia).
  rewrite E1, E2. lia.
Qed.

Lemma two_peaks resp l md acc rnd : Spec_Foerstner.corner_picture ow oh 2 closed resp -> md = 16 ->
  Spec_Peaks.peaks_of ow oh resp md acc rnd l -> (length l < 4)%nat.
Proof.
  intros (_ & HZ & _) -> [So Mx Ap _ _].
  assert (ND : NoDup l).
  { clear Mx Ap. induction So as [|p l So IH F]; constructor; auto. intros I. rewrite Forall_forall in F. specialize (F _ I).
    unfold Spec_Peaks.before in F. lia. }
  assert (BX : forall p, In p l -> (2 <= fst p < 11 /\ T - 11 < snd p <= T + 3) \/ (2 <= snd p < 11 /\ T - 11 < fst p <= T + 3)).
  { intros [x y] HI. destruct (Mx _ HI) as (B1 & B2 & _ & _ & NZ & _). cbn [fst snd] in *.
    assert (HS : ~ (Spec_Foerstner.fits ow oh 2 x y = false \/ Spec_Foerstner.one_way closed ow oh 2 x y)).
    { intros C. destruct (HZ x y ltac:(lia) ltac:(lia) C) as [Z1 _]. apply NZ. unfold Spec_Peaks.strength. apply pixv_0. exact Z1. }
    destruct (Spec_Foerstner.fits ow oh 2 x y) eqn:EF; [|exfalso; apply HS; auto].
    unfold Spec_Foerstner.fits in EF.
    destruct (Classical_Prop.classic (near_ends 3 x y)) as [N|N]; [|exfalso; apply HS; right; apply quiet; auto].
    unfold near_ends in N. lia. }
  set (A := fun p : Z * Z => fst p <? 11).
  assert (U : forall p q, In p l -> In q l -> A p = A q -> p = q).
  { intros p q Hp Hq EA. destruct (Classical_Prop.classic (p = q)) as [|N]; auto. exfalso.
    pose proof (Ap p q Hp Hq N) as HA. unfold Spec_Peaks.dist2 in HA.
    destruct p as [x y], q as [u v]. pose proof (BX _ Hp) as B1. pose proof (BX _ Hq) as B2. unfold A in EA. cbn [fst snd] in *.
    assert (C : (Z.abs (x - u) <= 8 /\ Z.abs (y - v) <= 13) \/ (Z.abs (x - u) <= 13 /\ Z.abs (y - v) <= 8)) by (clear -HT B1 B2 EA; lia).
    set (a := x - u) in *. set (c := y - v) in *. clearbody a c. clear -C HA. nia. }
  clear - ND U. destruct l as [|p [|q [|r l]]]; cbn [length]; try lia. exfalso.
  inversion ND as [|? ? N1 N2]; subst. inversion N2 as [|? ? N3 N4]; subst.
  assert (p <> q) by (intros ->; apply N1; left; auto). assert (p <> r) by (intros ->; apply N1; right; left; auto).
  assert (q <> r) by (intros ->; apply N3; left; auto).
  assert (I1 : In p (p :: q :: r :: l)) by (left; auto). assert (I2 : In q (p :: q :: r :: l)) by (right; left; auto).
  assert (I3 : In r (p :: q :: r :: l)) by (right; right; left; auto).
  pose proof (U p q I1 I2). pose proof (U p r I1 I3). pose proof (U q r I2 I3).
  destruct (A p), (A q), (A r); tauto.
Qed.
End Closed.

Lemma detect_black ex at2 asin fuel w h s p b : Spec_Blur.exp_ok ex -> atan2_ok at2 ->
  0 < w -> 0 < h -> w * h <= 1073741824 -> 66565 < Z.of_nat fuel -> wf s -> holds s p b -> image (w * h * 4) b ->
  (forall n, orc s n = true) -> dark w h b ->
  exists u, detect_corners ex at2 asin fuel p w h s = UB u.
Proof.
  intros He Ha Hw Hh Hs Hf Wf Hp Hb A Dk.
  destruct (detect_gen ex at2 asin He Ha s A fuel w h b (fun ow oh e framed mk L => triangle ow oh L)
    (fun ow oh L closed resp => Spec_Foerstner.corner_picture ow oh 2 closed resp)) with (p := p) as (ow & oh & e & framed & mk & L & EM & FM & TR & H); auto.
  - lia.
  - intros ow oh e framed mk s' p' q' EM FM W' H' Q' MK. destruct (dark_map _ _ _ _ _ _ Dk EM) as (Hw1 & Hh1 & DE).
    assert (SZ : (ow + 2) * (oh + 2) <= 66564) by (clear -Hw1 Hh1; nia).
    pose proof (dark_frame _ _ _ _ _ DE FM) as DF. destruct FM as ((_ & _ & X & _) & M1 & M2 & M3 & M4). rewrite Z.mul_1_r in X.
    destruct (half_cases ow Hw1) as [X1 _]. destruct (half_cases oh Hh1) as [Y1 _].
    eapply returns_fresh_weaken; [|apply (flat_watershed (ow + 2) (oh + 2) mk framed); auto; try lia; apply X].
    cbv beta. intros b' (L & C1 & C2 & C3 & C4). exists L. split; [exact C1|]. split; [exact C2|]. split; [exact C3|].
    rewrite M1, M2 in C4. apply triangle_of; auto.
  - intros ow oh e framed mk L closed s' p' EM _ _ CD W' H'. destruct EM as (_ & _ & Hw1 & Hh1 & _).
    destruct sigma_3_2 as [S1 S2].
    assert (SZ : ow * oh <= 65536) by (clear -Hw1 Hh1; nia).
    assert (HR := foerstner_safe ow oh (lit 3 2) s' p' closed ltac:(lia) ltac:(lia) ltac:(unfold INT_MAX; lia) S1). rewrite S2 in HR.
    eapply returns_fresh_weaken; [|apply HR; auto; try lia].
    + intros b' C. split; [apply C|exact C].
    + apply CD.
  - destruct EM as (_ & _ & Hw1 & Hh1 & _). destruct (edge_cases ow oh Hw1 Hh1) as [ES _].
    destruct H as [[_ H]|(closed & resp & l & CD & CP & (k & _ & PK & _) & H)].
    + exfalso. assert (I0 : inside ow oh 0 0) by (unfold inside; lia). specialize (H 0 0 I0). apply TR in H; auto. lia.
    + pose proof (two_peaks ow oh (edge_sum ow oh) (document L) closed ES Hw1 Hh1 TR CD resp l 16 _ _ CP eq_refl PK) as LT.
      replace (4 <=? Z.of_nat (length l)) with false in H by lia. exact H.
Qed.
