(** * P_Detect: the stages of fcv_detect_corners *)
From Coq Require Import Reals Lra Classical Sorting.Permutation.
From Flocq Require Import Core BinarySingleNaN.
From Verif Require Import Base BaseLemmas F Heap Spec FLemmas HeapLemmas Spec_Morph Spec_Draw Spec_Watershed Spec_Corners Spec_Detect.
From Verif Require Spec_Resize Spec_Blur Spec_Sobel Spec_Foerstner Spec_Peaks Spec_Trim.
From Verif Require Import P_Color P_Resize P_Blur P_Sobel P_Draw2 P_Border P_Watershed P_WatershedEx P_Color3 P_Morph P_Foerstner P_Peaks P_Corners
  P_Over P_DetectA P_DetectB.
From Verif Require Import M_Color M_Resize M_Blur M_Sobel M_Draw M_Watershed M_Morph M_Foerstner M_Peaks M_Corners M_Detect.
Local Open Scope Z_scope.

Lemma two_sizes n : 255 <= n <= 256 -> n = 255 \/ n = 256.
Proof. lia. Qed.

Lemma half_size n : 255 <= n <= 258 ->
  dfinite (ddiv (d_of_Z n) (d_of_Z 2)) = true /\ int_part (ddiv (d_of_Z n) (d_of_Z 2)) = n / 2.
Proof.
  intros H. assert (C : n = 255 \/ n = 256 \/ n = 257 \/ n = 258) by lia.
  destruct C as [->|[->|[->| ->]]]; split; vm_compute; reflexivity.
Qed.

Lemma black_gray v : drawn_gray 0 0 0 v -> v = 0.
Proof. intros [B [E|[_ E]]]; cbn in E; unfold byte in B; lia. Qed.

Lemma exact_is n b : exact_image n b -> image n b.
Proof. intros [_ I]. exact I. Qed.

Section Detect.
Variables (ex : f64 -> f64) (at2 : f64 -> f64 -> f64) (asin : f64 -> f64).
Hypothesis Hex : Spec_Blur.exp_ok ex.
Hypothesis Hat : atan2_ok at2.
Variable s : st.
Hypothesis Hall : forall n, orc s n = true.

(** ** The landscape *)
Lemma elevation_ok L s1 ig w h b g : over s ((ig, OBytes g) :: L) s1 -> 0 < w -> 0 < h -> w * h * 4 <= 4294967296 ->
  gray_picture w h b g ->
  exists ow oh e i s2, elevation ex w h (Ptr ig) s1 = Ok ((Ptr i, ow, oh), s2) /\
    edge_map w h b ow oh e /\ over s ((i, OBytes e) :: L) s2.
Proof.
  intros O Hw Hh Hs G. unfold elevation.
  rewrite !u32_small by nia.
  destruct (ratio_ok w 256) as [Fw Ow]; [nia|lia|]. destruct (ratio_ok h 256) as [Fh Oh]; [nia|lia|].
  fold (to_256 w) in Fw, Ow |- *. fold (to_256 h) in Fh, Oh |- *.
  set (ow := Spec_Resize.out_size w (to_256 w)) in *. set (oh := Spec_Resize.out_size h (to_256 h)) in *.
  assert (HR : Spec_Resize.returns_sized s1 (resize w h (to_256 w) (to_256 h) 256 256 (Ptr ig) s1) ow oh
    (Spec_Resize.resized w h (to_256 w) (to_256 h) g)).
  { apply resize_main; auto; [fold ow; fold oh; nia|eapply over_wf; eauto|eapply over_holds_in; [exact O|left; reflexivity]|apply G]. }
  destruct (over_sized _ _ _ _ _ _ _ O Hall HR) as (ir & s2 & small & E2 & R2 & O2).
  rewrite (bindM_Ok _ _ _ _ _ E2). cbv beta iota.
  destruct (over_free_in s ig _ [_] L s2 O2) as (s3 & E3 & O3). rewrite (bindM_Ok _ _ _ _ _ E3). cbv beta. cbn [is_null app] in *.
  assert (HB : returns_fresh s3 (apply_gaussian_blur ex ow oh (d_of_Z 3) (Ptr ir) s3) (Spec_Blur.blurred ow oh 3 small)).
  { assert (T3 : B2R (d_of_Z 3) = 3%R) by (apply d_of_Z_exact; lia). rewrite <- T3. apply blur_ok; auto; try lia.
    - clear -Ow Oh. nia.
    - rewrite T3. lra.
    - eapply over_wf; eauto.
    - eapply over_holds_in; [exact O3|left; reflexivity].
    - destruct R2 as [X _]. apply X. }
  destruct (over_fresh _ _ _ _ _ O3 Hall HB) as (ib & s4 & soft & E4 & R4 & O4).
  rewrite (bindM_Ok _ _ _ _ _ E4). cbv beta.
  destruct (over_free_in s ir _ [_] L s4 O4) as (s5 & E5 & O5). rewrite (bindM_Ok _ _ _ _ _ E5). cbv beta. cbn [is_null app] in *.
  assert (HS : returns_fresh s5 (sobel_edge_detection ow oh 4 (Ptr ib) s5) (Spec_Sobel.edges_of ow oh (fun x y => gray_at soft ow x y))).
  { apply sobel_rgba_image; try lia.
    - unfold SIZE_MAX. nia.
    - eapply over_wf; eauto.
    - eapply over_holds_in; [exact O5|left; reflexivity].
    - apply R4. }
  destruct (over_fresh _ _ _ _ _ O5 Hall HS) as (ie & s6 & edge & E6 & R6 & O6).
  rewrite (bindM_Ok _ _ _ _ _ E6). cbv beta.
  destruct (over_free_in s ib _ [_] L s6 O6) as (s7 & E7 & O7). rewrite (bindM_Ok _ _ _ _ _ E7). cbv beta. cbn [is_null app] in *.
  destruct disk_ok as (disk & Dd & Dl). destruct (half_size ow ltac:(lia)) as [Fx Ix]. destruct (half_size oh ltac:(lia)) as [Fy Iy].
  assert (I24 : int_part (d_of_Z 24) = 24) by (vm_compute; reflexivity).
  assert (EI : exact_image (ow * oh) edge) by apply R6.
  destruct (Dd ow oh 1 hex_black (d_of_Z 24) (ddiv (d_of_Z ow) (d_of_Z 2)) (ddiv (d_of_Z oh) (d_of_Z 2)) s7 (Ptr ie) edge 0 0 0) as (col & Cc & Rw).
  { unfold draw_ok. rewrite Ix, Iy, I24. pose proof (Z.div_le_upper_bound ow 2 256 ltac:(lia) ltac:(lia)).
    pose proof (Z.div_le_upper_bound oh 2 256 ltac:(lia) ltac:(lia)). pose proof (Z.div_pos ow 2 ltac:(lia) ltac:(lia)). pose proof (Z.div_pos oh 2 ltac:(lia) ltac:(lia)).
    repeat split; auto; try lia. }
  { eapply over_holds_in; [exact O7|left; reflexivity]. }
  { destruct EI as [-> _]. lia. }
  { reflexivity. }
  destruct (over_rewrites _ _ _ _ _ _ _ O7 Rw) as (s8 & e & E8 & Pa & O8).
  rewrite (bindM_Ok _ _ _ _ _ E8). cbv beta. unfold ret.
  exists ow, oh, e, ie, s8. split; [reflexivity|]. split; [|exact O8].
  assert (C0 : col 0 = 0) by (apply black_gray; exact Cc).
  rewrite I24, Ix, Iy in Pa.
  assert (Pa' : painted ow oh 1 (fun _ => 0) (fun x y => disk 24 (x - ow / 2) (y - oh / 2)) edge e).
  { destruct Pa as (P1 & P2 & P3). split; [exact P1|]. split; [|exact P3]. intros x y c Hi Hc. destruct (P2 x y c Hi Hc) as [P4 P5].
    split; [|exact P5]. intros Hd. rewrite (P4 Hd). replace c with 0 by lia. now rewrite C0. }
  split; [reflexivity|]. split; [reflexivity|]. split; [fold ow; lia|]. split; [fold oh; lia|].
  exists g, small, soft, edge, (disk 24). split; [exact G|]. split; [exact R2|]. split; [exact R4|]. split; [exact R6|].
  split; [apply Dl; lia|]. split; [exact Pa'|].
  (* still an image *)
  destruct Pa' as (P1 & P2 & _). destruct EI as [Le Ie]. split; [rewrite P1; exact Le|]. destruct Ie as [Lq Ie].
  split; [rewrite P1; lia|]. intros j Hj. destruct (rm_decomp ow oh j ltac:(lia) Hj) as (Hx & Hy & Ej).
  destruct (P2 (j mod ow) (j / ow) 0 (conj Hx Hy) ltac:(lia)) as [P4 P5]. unfold pix in P4, P5.
  replace ((j / ow * ow + j mod ow) * 1 + 0) with j in P4, P5 by lia.
  destruct (Classical_Prop.classic (disk 24 (j mod ow - ow / 2) (j / ow - oh / 2))) as [Y|N].
  - exists 0. split; [auto|]. unfold byte; lia.
  - rewrite (P5 N). apply Ie. exact Hj.
Qed.

(** ** The segmentation *)
Definition inner_of (ow oh : Z) (L : Z -> Z -> Z) (seg : buf Z) : Prop :=
  exact_image (ow * oh * 4) seg /\ forall x y, inside ow oh x y ->
    (pixv seg ow 4 x y 0, pixv seg ow 4 x y 1, pixv seg ow 4 x y 2) = region_colour (L (x + 1) (y + 1)) /\
    pix seg ow 4 x y 3 = Some 255.

Section Segment.
Variable Q : buf Z -> buf (f64 * f64) -> (Z -> Z -> Z) -> Prop.

Lemma segment_ok fuel Ls s1 ie e ow oh : over s ((ie, OBytes e) :: Ls) s1 -> 255 <= ow <= 256 -> 255 <= oh <= 256 ->
  exact_image (ow * oh) e ->
  (forall framed mk s p q, framed_map ow oh e framed mk -> wf s -> holds s p framed -> holds_pts s q mk ->
     markers_ok (ow + 2) (oh + 2) mk 2 ->
     returns_fresh s (watershed fuel (ow + 2) (oh + 2) p q 2 false s) (fun b' => exists L,
       coloured (ow + 2) (oh + 2) L b' /\ Q framed mk L)) ->
  exists framed mk L seg i iw wide s2, segment fuel ow oh (Ptr ie) s1 = Ok (Ptr i, s2) /\
    framed_map ow oh e framed mk /\ Q framed mk L /\ inner_of ow oh L seg /\
    over s ((i, OBytes seg) :: (iw, OBytes wide) :: Ls) s2.
Proof.
  intros O Hw Hh Ie HW. unfold segment.
  destruct (add_border_ok ow oh 1 hex_black 1 s1 (Ptr ie) e 0 0 0 0 0) as (col & Cc & RB); try lia.
  { eapply over_wf; eauto. }
  { clear -Hw Hh. nia. }
  { eapply over_holds_in; [exact O|left; reflexivity]. }
  { rewrite Z.mul_1_r. now apply exact_is. }
  { reflexivity. }
  destruct (over_sized' _ _ _ _ _ O Hall RB) as (ib & w' & h' & s2 & framed & E2 & B2 & O2).
  rewrite (bindM_Ok _ _ _ _ _ E2). cbv beta iota. clear E2 RB.
  destruct (over_free_in s ie _ [_] Ls s2 O2) as (s3 & E3 & O3). rewrite (bindM_Ok _ _ _ _ _ E3). cbv beta. cbn [is_null app] in *. clear E3.
  assert (Ew : w' = ow + 2) by apply B2. assert (Eh : h' = oh + 2) by apply B2. subst w' h'.
  destruct (over_alloc s _ s3 (OPts (bnew 2)) O3 Hall) as (im & s4 & E4 & O4).
  rewrite (bindM_Ok _ _ _ _ _ E4). cbv beta. cbn [is_null]. clear E4.
  rewrite (bindM_Ok _ _ _ _ _ (get_pts_ok s4 im _ (over_at _ _ _ _ _ O4 (or_introl eq_refl)))). cbv beta.
  rewrite (bindM_lift _ _ _ _ (store_ok (bnew 2) 0 _ ltac:(cbn [blen bnew]; lia))).
  rewrite (bindM_lift _ _ _ _ (store_ok (bset (bnew 2) 0 _) 1 _ ltac:(cbn [blen bnew bset]; lia))).
  set (mk := bset (bset (bnew 2) 0 _) 1 _).
  destruct (over_put s im _ (OPts mk) _ s4 O4) as (s5 & E5 & O5). rewrite (bindM_Ok _ _ _ _ _ E5). cbv beta. clear E5.
  destruct (half_size (ow + 2) ltac:(lia)) as [Fx Ix]. destruct (half_size (oh + 2) ltac:(lia)) as [Fy Iy].
  assert (M0 : mx mk 0 = (ow + 2) / 2) by exact Ix. assert (M1 : my mk 0 = (oh + 2) / 2) by exact Iy.
  assert (M2 : mx mk 1 = 0) by reflexivity. assert (M3 : my mk 1 = 0) by reflexivity.
  assert (C0 : col 0 = 0) by (apply black_gray; exact Cc).
  assert (FM : framed_map ow oh e framed mk).
  { split; [|repeat split; auto]. destruct B2 as (_ & _ & B3 & B4). split; [lia|]. split; [lia|]. split; [exact B3|].
    intros x y c Hi Hc. rewrite B4 by auto. replace c with 0 by lia. now rewrite C0. }
  assert (DX : 0 <= (ow + 2) / 2 < ow + 2).
  { split; [apply Z.div_pos; lia|apply Z.div_lt_upper_bound; lia]. }
  assert (DY : 0 <= (oh + 2) / 2 < oh + 2).
  { split; [apply Z.div_pos; lia|apply Z.div_lt_upper_bound; lia]. }
  assert (MK : markers_ok (ow + 2) (oh + 2) mk 2).
  { split; [lia|]. split; [reflexivity|]. intros m Hm. assert (m = 0 \/ m = 1) as [-> | ->] by lia.
    - split; [|rewrite M0, M1; split; auto]. eexists _, _. split; [reflexivity|]. auto.
    - split; [|rewrite M2, M3; split; lia]. eexists _, _. split; [reflexivity|]. auto. }
  assert (HWs := HW framed mk s5 (Ptr ib) (Ptr im) FM (over_wf _ _ _ O5)
    (over_holds_in _ _ _ _ _ O5 (or_intror (or_introl eq_refl)))
    (ex_intro _ im (conj eq_refl (over_at _ _ _ _ _ O5 (or_introl eq_refl)))) MK).
  destruct (over_fresh _ _ _ _ _ O5 Hall HWs) as (iw & s6 & wide & E6 & (L & CL & HQ) & O6).
  rewrite (bindM_Ok _ _ _ _ _ E6). cbv beta. clear E6 HWs.
  destruct (over_free_in s ib _ [_; _] Ls s6 O6) as (s7 & E7 & O7). rewrite (bindM_Ok _ _ _ _ _ E7). cbv beta. cbn [app] in *. clear E7.
  destruct (over_free_in s im _ [_] Ls s7 O7) as (s8 & E8 & O8). rewrite (bindM_Ok _ _ _ _ _ E8). cbv beta. cbn [app] in *. clear E8.
  assert (SZ : ow * oh <= 65536) by (clear -Hw Hh; nia). assert (SP : 0 < ow * oh) by (clear -Hw Hh; nia).
  rewrite (u32_small (ow * oh)) by lia. rewrite (u32_small (ow * oh * 4)) by lia.
  unfold malloc_bytes.
  destruct (over_alloc s _ s8 (OBytes (bnew (ow * oh * 4))) O8 Hall) as (i & s9 & E9 & O9).
  rewrite (bindM_Ok _ _ _ _ _ E9). cbv beta. cbn [is_null]. clear E9.
  rewrite (bindM_Ok _ _ _ _ _ (get_bytes_ok s9 iw wide (over_at _ _ _ _ _ O9 (or_intror (or_introl eq_refl))))). cbv beta.
  rewrite (bindM_Ok _ _ _ _ _ (get_bytes_ok s9 i _ (over_at _ _ _ _ _ O9 (or_introl eq_refl)))). cbv beta.
  destruct CL as [Iw CL].
  destruct (unborder_ok ow oh wide (bnew (ow * oh * 4))) as (seg & Eu & Is & Ps); [lia|lia|exact Iw|reflexivity|].
  rewrite (bindM_lift _ _ _ _ Eu). unfold put_bytes.
  destruct (over_put s i _ (OBytes seg) _ s9 O9) as (s10 & E10 & O10). rewrite (bindM_Ok _ _ _ _ _ E10). cbv beta. unfold ret.
  exists framed, mk, L, seg, i, iw, wide, s10. split; [reflexivity|]. split; [exact FM|]. split; [exact HQ|]. split; [|exact O10].
  split; [exact Is|]. intros x y Hi. destruct (CL (x + 1) (y + 1)) as [C1 C2]; [unfold inside in *; lia|].
  unfold pixv in *. rewrite !Ps by (auto; lia). auto.
Qed.
End Segment.

(** ** The corner response *)
Section Response.
Variable Qf : buf Z -> buf Z -> Prop.

Lemma response_ok Ls s1 i seg ow oh L : over s ((i, OBytes seg) :: Ls) s1 -> 255 <= ow <= 256 -> 255 <= oh <= 256 ->
  (forall x y, inside ow oh x y -> L (x + 1) (y + 1) = 0 \/ L (x + 1) (y + 1) = 1) ->
  (exists x y, inside ow oh x y /\ L (x + 1) (y + 1) = 0) ->
  inner_of ow oh L seg ->
  (forall closed s p, closed_document ow oh L closed -> wf s -> holds s p closed ->
     returns_fresh s (foerstner_corner ow oh p (lit 3 2) s) (fun b' => image (ow * oh * 2) b' /\ Qf closed b')) ->
  (response ow oh (Ptr i) s1 = Abort /\ forall x y, inside ow oh x y -> document L x y) \/
  (exists closed resp ir s2, response ow oh (Ptr i) s1 = Ok (Ptr ir, s2) /\
     closed_document ow oh L closed /\ image (ow * oh * 2) resp /\ Qf closed resp /\
     over s ((ir, OBytes resp) :: Ls) s2).
Proof.
  intros O Hw Hh Hr (x0 & y0 & Hi0 & L0) [Is Hs] HF. unfold response.
  assert (SZ : ow * oh <= 65536) by (clear -Hw Hh; nia). assert (SP : 0 < ow * oh) by (clear -Hw Hh; nia).
  rewrite !(s32_small ow), !(s32_small oh) by (unfold INT_MIN, INT_MAX; lia).
  destruct (count_colors_ok s _ s1 i seg ow oh O Hall (or_introl eq_refl)) as (s2 & K & E2 & O2 & CK); try lia.
  { unfold INT_MAX. lia. } { apply Is. }
  rewrite (bindM_Ok _ _ _ _ _ E2). cbv beta. clear E2.
  assert (Col : forall x y, inside ow oh x y -> (pixv seg ow 4 x y 0, pixv seg ow 4 x y 1, pixv seg ow 4 x y 2) =
    (if L (x + 1) (y + 1) =? 0 then (255, 0, 0) else (0, 255, 0))).
  { intros x y Hi. rewrite (proj1 (Hs x y Hi)). destruct (Hr x y Hi) as [-> | ->]; reflexivity. }
  destruct (classic (forall x y, inside ow oh x y -> L (x + 1) (y + 1) = 0)) as [All|Nall].
  - left. assert (LK : (length K <= 1)%nat).
    { apply (one_coloured ow oh seg); auto; try lia. intros x y Hi. rewrite Col by auto. now rewrite All. }
    replace (Z.of_nat (length K) =? 2) with false by lia. cbn [negb].
    destruct (over_free s i _ Ls s2 O2) as (s3 & E3 & O3). rewrite (bindM_Ok _ _ _ _ _ E3). cbv beta. unfold exit_failure. split; auto.
  - right. assert (LK : length K = 2%nat).
    { apply (two_coloured ow oh seg (fun x y => L (x + 1) (y + 1) =? 0)); auto; try lia.
      - intros x y Hi. unfold pixv. rewrite (proj2 (Hs x y Hi)). reflexivity.
      - exists x0, y0. split; auto. now rewrite L0.
      - apply not_all_ex_not in Nall as (x & Nall). apply not_all_ex_not in Nall as (y & Nall). apply imply_to_and in Nall as [Hi N].
        exists x, y. split; auto. lia. }
    rewrite LK. change (negb (Z.of_nat 2 =? 2)) with false. cbv iota.
    assert (HC := convert_to_binary_ok ow oh s2 (Ptr i) seg hex_red hex_green 255 0 0 (over_wf _ _ _ O2) ltac:(lia) ltac:(lia)
      (over_holds_in _ _ _ _ _ O2 (or_introl eq_refl)) (exact_is _ _ Is) eq_refl).
    destruct (over_fresh _ _ _ _ _ O2 Hall HC) as (ibin & s3 & bin & E3 & (Ib & Pb) & O3). clear HC.
    rewrite (bindM_Ok _ _ _ _ _ E3). cbv beta. clear E3.
    destruct (over_free_in s i _ [_] Ls s3 O3) as (s4 & E4 & O4). rewrite (bindM_Ok _ _ _ _ _ E4). cbv beta. cbn [app] in *. clear E4.
    assert (HM : morph_ok ow oh 12) by (unfold morph_ok; lia).
    assert (HC := closing_ok ow oh 12 s4 (Ptr ibin) bin (over_wf _ _ _ O4) HM (over_holds_in _ _ _ _ _ O4 (or_introl eq_refl)) (exact_is _ _ Ib)).
    destruct (over_fresh _ _ _ _ _ O4 Hall HC) as (ic & s5 & closed & E5 & Pc & O5). clear HC.
    rewrite (bindM_Ok _ _ _ _ _ E5). cbv beta. clear E5.
    destruct (over_free_in s ibin _ [_] Ls s5 O5) as (s6 & E6 & O6). rewrite (bindM_Ok _ _ _ _ _ E6). cbv beta. cbn [is_null app] in *. clear E6.
    assert (WD : forall x y, inside ow oh x y -> (Spec_Morph.white bin ow x y <-> document L x y)).
    { intros x y Hi. destruct (Pb x y) as [P1 _]; [apply Hi|apply Hi|]. unfold Spec_Morph.white. rewrite P1. unfold document.
      pose proof (Col x y Hi) as C. destruct Is as [_ Is]. 
      assert (PX : forall c, 0 <= c < 4 -> pix seg ow 4 x y c = Some (pixv seg ow 4 x y c)).
      { intros c Hc. unfold pixv, pix. destruct Is as [_ Is]. destruct (Is ((y * ow + x) * 4 + c)) as (v & -> & _); [|reflexivity].
        unfold inside in Hi. clear -Hi Hc. nia. }
      rewrite !PX by lia. destruct (Z.eqb_spec (L (x + 1) (y + 1)) 0) as [Z0|NZ]; injection C as -> -> ->.
      - tauto.
      - split; [intros (X & _); discriminate X|tauto]. }
    assert (CD : closed_document ow oh L closed).
    { destruct Pc as [I1 P1]. split; [exact I1|]. intros x y Hi. destruct (P1 x y Hi) as [P2 P3]. split; [|exact P3]. rewrite P2.
      assert (DD : forall x y, dilated ow oh 12 (Spec_Morph.white bin ow) x y <-> dilated ow oh 12 (document L) x y).
      { intros x' y'. unfold dilated. split; intros (x1 & y1 & H1 & H2); exists x1, y1; (split; [exact H1|]); intuition; apply WD; auto. }
      unfold eroded_rep. split; intros H x' y' Hd; apply DD; apply H; exact Hd. }
    assert (HFs := HF closed s6 (Ptr ic) CD (over_wf _ _ _ O6) (over_holds_in _ _ _ _ _ O6 (or_introl eq_refl))).
    destruct (over_fresh _ _ _ _ _ O6 Hall HFs) as (ir & s7 & resp & E7 & (Ir & Pr) & O7). clear HFs.
    rewrite (bindM_Ok _ _ _ _ _ E7). cbv beta. clear E7.
    destruct (over_free_in s ic _ [_] Ls s7 O7) as (s8 & E8 & O8). rewrite (bindM_Ok _ _ _ _ _ E8). cbv beta. cbn [is_null app] in *. clear E8.
    rewrite !(u32_small (ow * oh)) by lia. unfold malloc_bytes.
    destruct (over_alloc s _ s8 (OBytes (bnew (ow * oh))) O8 Hall) as (iw & s9 & E9 & O9).
    rewrite (bindM_Ok _ _ _ _ _ E9). cbv beta. cbn [is_null]. clear E9.
    rewrite (bindM_Ok _ _ _ _ _ (get_bytes_ok s9 ir resp (over_at _ _ _ _ _ O9 (or_intror (or_introl eq_refl))))). cbv beta.
    rewrite (bindM_Ok _ _ _ _ _ (get_bytes_ok s9 iw _ (over_at _ _ _ _ _ O9 (or_introl eq_refl)))). cbv beta.
    destruct (copy_w_ok (ow * oh) resp (bnew (ow * oh)) ltac:(lia) ltac:(lia) Ir eq_refl) as (wb & Ew).
    rewrite (bindM_lift _ _ _ _ Ew). unfold put_bytes.
    destruct (over_put s iw _ (OBytes wb) _ s9 O9) as (s10 & E10 & O10). rewrite (bindM_Ok _ _ _ _ _ E10). cbv beta. clear E10.
    destruct (over_free s iw _ _ s10 O10) as (s11 & E11 & O11). rewrite (bindM_Ok _ _ _ _ _ E11). cbv beta. unfold ret.
    exists closed, resp, ir, s11. auto.
Qed.
End Response.

(** ** The peaks *)
Definition pkblocks (ip : Z) (l : list (Z * Z)) (B : list (Z * obj)) : Prop :=
  (l = [] /\ B = [(ip, OPeaks None 0)]) \/
  (l <> [] /\ exists k pts, B = [(ip, OPeaks (Some k) (Z.of_nat (length l))); (k, OPts pts)] /\ lrep (d0, d0) pts (map zpt l)).

Lemma over_peaks L s1 run P : over s L s1 -> Spec_Peaks.returns_peaks s1 run P ->
  exists ip B l s2, run = Ok (Ptr ip, s2) /\ P l /\ pkblocks ip l B /\ over s (B ++ L) s2.
Proof.
  intros O (p & s2 & E & La & H). pose proof (over_wf _ _ _ O) as W1. pose proof (over_orc _ _ _ O Hall) as A1. destruct p as [|i].
  - destruct H as [_ F]. now apply no_failure in F.
  - destruct H as (F & l & HP & [(-> & M & Ot)|(Nl & k & pts & Nk & Fk & M & Mk & Lp & Gp & Ot)]).
    + exists i, [(i, OPeaks None 0)], [], s2. split; [auto|]. split; [auto|]. split; [left; auto|].
      apply over_add with s1; auto. apply one_block; auto.
    + exists i, [(i, OPeaks (Some k) (Z.of_nat (length l))); (k, OPts pts)], l, s2. split; [auto|]. split; [auto|]. split.
      { right. split; [auto|]. exists k, pts. split; [auto|]. split; [rewrite map_length; auto|]. intros m Hm. rewrite map_length in Hm.
        rewrite Gp by auto. rewrite nth_indep with (d' := zpt (0, 0)) by (rewrite map_length; auto). rewrite map_nth. reflexivity. }
      apply over_add with s1; auto. split; [auto|]. split; [auto|]. split.
      { cbn. repeat constructor; cbn; intuition. }
      split. { cbn. intros j [<-|[<-|[]]]; auto. }
      intros j. cbn. destruct (Z.eqb_spec j i) as [->|]; [auto|]. destruct (Z.eqb_spec j k) as [->|]; [auto|]. apply Ot; auto.
Qed.

Lemma thresholds k : (k <= 7)%nat ->
  dfinite (threshold (lit 4 10) k) = true /\ dfinite (threshold (lit 2 10) k) = true /\
  dlt min_thresh (lower (threshold (lit 4 10) k)) || dlt min_thresh (lower (threshold (lit 2 10) k)) = (k <? 7)%nat.
Proof. intros H. do 8 (destruct k as [|k]; [split; [|split]; vm_compute; reflexivity|]). lia. Qed.

Lemma get_peaks_ok s1 ip pts n : mem s1 ip = Some (OPeaks pts n) ->
  get_peaks (Ptr ip) s1 = Ok ((match pts with Some i => Ptr i | None => Null end, n), s1).
Proof. unfold get_peaks, bindM, get_obj; intros ->; reflexivity. Qed.

Lemma round_ok ow oh ir resp Ls k s1 : 255 <= ow <= 256 -> 255 <= oh <= 256 -> image (ow * oh * 2) resp -> (k <= 7)%nat ->
  over s ((ir, OBytes resp) :: Ls) s1 ->
  exists ip B l s2 pt s3 s4, corner_peaks ow oh (Ptr ir) 16 (threshold (lit 4 10) k) (threshold (lit 2 10) k) s1 = Ok (Ptr ip, s2) /\
    peaks_in_round ow oh resp k l /\ pkblocks ip l B /\ over s (B ++ (ir, OBytes resp) :: Ls) s2 /\
    get_peaks (Ptr ip) s2 = Ok ((pt, Z.of_nat (length l)), s2) /\
    free pt s2 = Ok (tt, s3) /\ free (Ptr ip) s3 = Ok (tt, s4) /\ over s ((ir, OBytes resp) :: Ls) s4.
Proof.
  intros Hw Hh Ir Hk O. destruct (thresholds k Hk) as (F1 & F2 & _).
  assert (HP := corner_peaks_ok ow oh s1 (Ptr ir) resp 16 _ _ (over_wf _ _ _ O) ltac:(lia) ltac:(lia) ltac:(clear -Hw Hh; nia)
    ltac:(unfold is_u32; lia) F1 F2 (over_holds_in _ _ _ _ _ O (or_introl eq_refl)) Ir).
  destruct (over_peaks _ _ _ _ O HP) as (ip & B & l & s2 & E2 & P2 & Bk & O2).
  exists ip, B, l, s2.
  assert (GP : exists pt s3 s4, get_peaks (Ptr ip) s2 = Ok ((pt, Z.of_nat (length l)), s2) /\
     free pt s2 = Ok (tt, s3) /\ free (Ptr ip) s3 = Ok (tt, s4) /\ over s ((ir, OBytes resp) :: Ls) s4).
  { destruct Bk as [[-> ->]|(Nl & kk & pts & -> & R)].
    - destruct (over_free _ _ _ _ _ O2) as (s4 & E4 & O4). exists Null, s2, s4.
      split; [apply (get_peaks_ok s2 ip None 0); eapply over_at; [exact O2|left; reflexivity]|]. auto.
    - destruct (over_free_in s kk _ [_] _ s2 O2) as (s3 & E3 & O3). destruct (over_free _ _ _ _ _ O3) as (s4 & E4 & O4).
      exists (Ptr kk), s3, s4. split; [apply (get_peaks_ok s2 ip (Some kk)); eapply over_at; [exact O2|left; reflexivity]|]. auto. }
  destruct GP as (pt & s3 & s4 & G1 & G2 & G3 & G4). exists pt, s3, s4. auto 10.
Qed.

Lemma search_ok ow oh ir resp Ls m : 255 <= ow <= 256 -> 255 <= oh <= 256 -> image (ow * oh * 2) resp ->
  forall k fuel s1, (k + m = 7)%nat -> (m < fuel)%nat -> over s ((ir, OBytes resp) :: Ls) s1 ->
  (forall j, (j < k)%nat -> exists l', peaks_in_round ow oh resp j l' /\ (length l' < 4)%nat) ->
  exists ip B l s2, search fuel ow oh (Ptr ir) (threshold (lit 4 10) k) (threshold (lit 2 10) k) s1 = Ok (Ptr ip, s2) /\
    peaks_found ow oh resp l /\ pkblocks ip l B /\ over s (B ++ (ir, OBytes resp) :: Ls) s2.
Proof.
  intros Hw Hh Ir. induction m as [|m IH]; intros k fuel s1 Hk Hf O Prev; (destruct fuel as [|fuel]; [lia|]).
  all: destruct (round_ok ow oh ir resp Ls k s1 Hw Hh Ir ltac:(lia) O) as (ip & B & l & s2 & pt & s3 & s4 & E2 & P2 & Bk & O2 & G1 & G2 & G3 & G4).
  all: destruct (thresholds k ltac:(lia)) as (F1 & F2 & Th).
  all: cbn [search]; rewrite (bindM_Ok _ _ _ _ _ E2); cbv beta; cbn [is_null]; rewrite (bindM_Ok _ _ _ _ _ G1); cbv beta; cbn [fst snd].
  all: destruct (Z.leb_spec 4 (Z.of_nat (length l))) as [L4|L4];
    [exists ip, B, l, s2; split; [reflexivity|]; split; [exists k; split; [lia|]; split; [exact P2|]; split; [exact Prev|left; lia]|]; auto|].
  all: rewrite Th.
  - replace (k <? 7)%nat with false by (symmetry; apply Nat.ltb_ge; lia).
    exists ip, B, l, s2. split; [reflexivity|]. split; [|auto]. exists k. split; [lia|]. split; [exact P2|]. split; [exact Prev|right; lia].
  - replace (k <? 7)%nat with true by (symmetry; apply Nat.ltb_lt; lia).
    rewrite (bindM_Ok _ _ _ _ _ G2). cbv beta. rewrite (bindM_Ok _ _ _ _ _ G3). cbv beta.
    apply (IH (S k) fuel s4); [lia|lia|exact G4|]. intros j Hj. destruct (Nat.eq_dec j k) as [->|].
    + exists l. split; [exact P2|lia].
    + apply Prev. lia.
Qed.

(** ** The corners *)
Lemma over_writes w h ow oh i b L s1 run P : over s ((i, OPts b) :: L) s1 -> writes_corners w h ow oh s1 (Ptr i) run P ->
  exists c s2 b' l', run = Ok (c, s2) /\ P l' /\ blen b' = blen b /\
    (forall k, bget b' k = if (0 <=? k) && (k <? Z.of_nat (length l')) then Some (nth (Z.to_nat k) l' (d0, d0)) else bget b k) /\
    over s ((i, OPts b') :: L) s2.
Proof.
  intros O (c & s2 & E & La & [(_ & F & _)|(i' & b0 & b' & l' & Ei & M & M' & Ot & HP & Lb & G & _)]).
  { now apply (no_failure _ _ (over_orc _ _ _ O Hall)) in F. }
  inversion Ei; subst i'. pose proof (over_at _ _ _ i _ O (or_introl eq_refl)) as Mi. rewrite Mi in M. inversion M; subst b0.
  exists c, s2, b', l'. split; [auto|]. split; [auto|]. split; [auto|]. split; [auto|].
  destruct O as (W & La1 & ND & Fr & M1). split; [auto|]. split; [eapply later_trans; eauto|]. split; [exact ND|]. split; [exact Fr|].
  intros j. cbn. destruct (Z.eqb_spec j i) as [->|Hn]; [auto|]. rewrite Ot, M1 by auto. cbn.
  destruct (Z.eqb_spec j i); [congruence|auto].
Qed.

Lemma copy_three (L : list (f64 * f64)) wk ib I (r : buf (f64 * f64)) : lrep (d0, d0) wk L -> lrep di ib I -> length I = 4%nat -> length L = 4%nat ->
  (forall e, In e I -> 0 <= i_index e < 4) -> blen r = 3 -> copy_sorted 4 ib wk r = UB OutOfBounds.
Proof.
  intros W R LI LL HI HB. unfold copy_sorted, for_. change (Z.to_nat (4 - 0)) with 4%nat. cbn [iter_n].
  assert (Ld : forall i, 0 <= i < 4 -> exists e, load ib i = Ok e /\ exists p, load wk (i_index e) = Ok p).
  { intros i Hi. exists (nth (Z.to_nat i) I di). split; [apply (lrep_load di ib I i R); lia|]. eexists.
    apply (lrep_load (d0, d0) wk L _ W). rewrite LL. apply HI. apply nth_In. lia. }
  destruct (Ld 0 ltac:(lia)) as (e0 & -> & p0 & E0). cbn [bind]. rewrite E0. cbn [bind]. rewrite store_ok by lia. cbn [bind].
  change (0 + 1) with 1.
  destruct (Ld 1 ltac:(lia)) as (e1 & -> & p1 & E1). cbn [bind]. rewrite E1. cbn [bind]. rewrite store_ok by (cbn [blen bset]; lia). cbn [bind].
  change (1 + 1) with 2.
  destruct (Ld 2 ltac:(lia)) as (e2 & -> & p2 & E2). cbn [bind]. rewrite E2. cbn [bind]. rewrite store_ok by (cbn [blen bset]; lia). cbn [bind].
  change (2 + 1) with 3.
  destruct (Ld 3 ltac:(lia)) as (e3 & -> & p3 & E3). cbn [bind]. rewrite E3. cbn [bind]. unfold store, inb. cbn [blen bset]. rewrite HB. reflexivity.
Qed.

Lemma three_overflow fuel w h ow oh iq ir cb rb a b c L s1 : over s L s1 -> (3 <= fuel)%nat -> In (iq, OPts cb) L -> In (ir, OPts rb) L ->
  lrep (d0, d0) cb [a; b; c] -> blen rb = 3 -> sort_corners at2 fuel w h ow oh (Ptr iq) 3 (Ptr ir) s1 = UB OutOfBounds.
Proof.
  intros O Hf Iq Irr [Lc Gc] Lr. unfold sort_corners. change (3 <? 3) with false. cbv zeta iota. change (4 <=? 3) with false. cbv iota.
  destruct (over_alloc s _ s1 (OPts (bnew 4)) O Hall) as (iw & s2 & E2 & O2).
  rewrite (bindM_Ok _ _ _ _ _ E2). cbv beta. cbn [is_null].
  rewrite (bindM_Ok _ _ _ _ _ (get_pts_ok s2 iq cb (over_at _ _ _ _ _ O2 (or_intror Iq)))). cbv beta.
  rewrite (bindM_Ok _ _ _ _ _ (get_pts_ok s2 iw _ (over_at _ _ _ _ _ O2 (or_introl eq_refl)))). cbv beta.
  destruct (fill_three a b c cb) as (wk & EF & W); [cbn in Lc; lia|intros k Hk; apply Gc; exact Hk|].
  rewrite (bindM_lift _ _ _ _ EF). cbv iota. set (M := [a; b; c; missing_corner a b c]) in *.
  destruct (over_put s iw _ (OPts wk) _ s2 O2) as (s3 & E3 & O3). rewrite (bindM_Ok _ _ _ _ _ E3). cbv beta.
  rewrite (bindM_lift _ _ _ _ (find_centre_ok M wk ltac:(cbn; lia) W)).
  destruct (pure_ok at2 fuel M wk Hat Hf ltac:(cbn; lia) W) as (tli & ib1 & ib2 & ib3 & I & F1 & F2 & F3 & F4 & R3 & LI & HI & _).
  change (Z.of_nat (length M)) with 4 in *.
  rewrite (bindM_lift _ _ _ _ F1).
  destruct (over_alloc s _ s3 (OInts (bnew (3 * 4))) O3 Hall) as (ic & s4 & E4 & O4).
  rewrite (bindM_Ok _ _ _ _ _ E4). cbv beta. cbn [is_null].
  rewrite (bindM_lift _ _ _ _ F2). rewrite (bindM_lift _ _ _ _ F3). rewrite (bindM_lift _ _ _ _ F4).
  rewrite (bindM_Ok _ _ _ _ _ (get_pts_ok s4 ir rb (over_at _ _ _ _ _ O4 (or_intror (or_intror Irr))))). cbv beta.
  unfold bindM at 1, lift at 1. rewrite (copy_three M wk ib3 I rb W R3) by auto. reflexivity.
Qed.

Definition finish (fuel : nat) (width height ow oh : Z) (peaks : ptr) : M corners :=
  pk <-- get_peaks peaks ;;
  let '(points, count) := pk in
  sorted_result <-- alloc (OPts (bnew count)) ;;
  _ <-- sort_corners at2 fuel width height (s32 ow) (s32 oh) points count sorted_result ;;
  sorted_corners <-- choose asin (ddiv (d_of_Z width) (d_of_Z ow)) (ddiv (d_of_Z height) (d_of_Z oh)) count sorted_result ;;
  _ <-- free sorted_result ;;
  _ <-- free peaks ;;
  ret sorted_corners.

Lemma finish_ok fuel w h ow oh ip l B Ls s1 : (3 <= fuel)%nat -> Z.of_nat (length l) < 2147483648 ->
  pkblocks ip l B -> over s (B ++ Ls) s1 ->
  if (4 <=? Z.of_nat (length l)) then
    exists c s2 k pts, finish fuel w h ow oh (Ptr ip) s1 = Ok (c, s2) /\ best_four at2 asin w h ow oh l c /\
      over s ((k, OPts pts) :: Ls) s2
  else exists u, finish fuel w h ow oh (Ptr ip) s1 = UB u.
Proof.
  intros Hf Hm Bk O. unfold finish.
  assert (Few : forall n pt s2 i, over s ((i, OPts (bnew n)) :: B ++ Ls) s2 -> 0 <= n < 3 ->
    exists u, bindM (sort_corners at2 fuel w h (s32 ow) (s32 oh) pt n (Ptr i)) (fun _ =>
      sorted_corners <-- choose asin (ddiv (d_of_Z w) (d_of_Z ow)) (ddiv (d_of_Z h) (d_of_Z oh)) n (Ptr i) ;;
      _ <-- free (Ptr i) ;; _ <-- free (Ptr ip) ;; ret sorted_corners) s2 = UB u).
  { intros n pt s2 i O2 Hn. rewrite (bindM_Ok _ _ _ _ _ (too_few at2 fuel w h (s32 ow) (s32 oh) s2 pt n (Ptr i) Hn)). cbv beta.
    unfold choose. replace (4 <? n) with false by lia. unfold bindM at 1.
    rewrite (bindM_Ok _ _ _ _ _ (get_pts_ok s2 i _ (over_at _ _ _ _ _ O2 (or_introl eq_refl)))). cbv beta.
    assert (n = 0 \/ n = 1 \/ n = 2) as [-> |[-> | ->]] by lia; eexists; reflexivity. }
  destruct Bk as [[-> ->]|(Nl & kk & pts & -> & R)].
  - cbn [length Z.of_nat Z.leb]. change (4 <=? 0) with false. cbv iota.
    rewrite (bindM_Ok _ _ _ _ _ (get_peaks_ok s1 ip None 0 (over_at _ _ _ _ _ O (or_introl eq_refl)))). cbv beta iota.
    destruct (over_alloc s _ s1 (OPts (bnew 0)) O Hall) as (i & s2 & E2 & O2). rewrite (bindM_Ok _ _ _ _ _ E2). cbv beta.
    apply (Few 0 Null s2 i O2). lia.
  - set (n := Z.of_nat (length l)) in *. assert (nE : n = Z.of_nat (length l)) by reflexivity.
    rewrite (bindM_Ok _ _ _ _ _ (get_peaks_ok s1 ip (Some kk) n (over_at _ _ _ _ _ O (or_introl eq_refl)))). cbv beta iota.
    destruct (over_alloc s _ s1 (OPts (bnew n)) O Hall) as (i & s2 & E2 & O2). rewrite (bindM_Ok _ _ _ _ _ E2). cbv beta.
    destruct (Z.leb_spec 4 n) as [L4|L4].
    + assert (HS := sort_corners_ok at2 fuel w h (s32 ow) (s32 oh) s2 (Ptr kk) (map zpt l) (Ptr i) (bnew n) Hat Hf (over_wf _ _ _ O2)).
      rewrite map_length in HS. fold n in HS.
      assert (HS' := HS ltac:(exists kk, pts; split; [reflexivity|]; split; [apply (over_at _ _ _ _ _ O2); right; right; left; reflexivity|]; destruct R as [R1 R2]; split; [lia|exact R2])
        ltac:(lia) ltac:(exists i; split; [reflexivity|]; apply (over_at _ _ _ _ _ O2); left; reflexivity) ltac:(cbn [blen bnew]; lia)).
      clear HS. destruct (over_writes _ _ _ _ _ _ _ _ _ _ O2 HS') as (c0 & s3 & b' & l' & E3 & SC & Lb & G & O3). clear HS'.
      rewrite (bindM_Ok _ _ _ _ _ E3). cbv beta.
      assert (Ll : length l' = length l). { destruct SC as [Pm _]. apply Permutation_length in Pm. now rewrite map_length in Pm. }
      assert (R' : lrep (d0, d0) b' l').
      { split; [rewrite Lb, Ll; reflexivity|]. intros k Hk. rewrite G. replace ((0 <=? Z.of_nat k) && (Z.of_nat k <? Z.of_nat (length l'))) with true by lia.
        now rewrite Nat2Z.id. }
      destruct (choose_ok asin w h ow oh s _ s3 i b' l' O3 Hall (or_introl eq_refl) R' ltac:(lia) ltac:(lia)) as (c & s4 & E4 & O4 & Ch).
      rewrite Ll in E4. fold n in E4. rewrite (bindM_Ok _ _ _ _ _ E4). cbv beta.
      destruct (over_free _ _ _ _ _ O4) as (s5 & E5 & O5). rewrite (bindM_Ok _ _ _ _ _ E5). cbv beta.
      destruct (over_free _ _ _ _ _ O5) as (s6 & E6 & O6). rewrite (bindM_Ok _ _ _ _ _ E6). cbv beta. unfold ret.
      exists c, s6, kk, pts. split; [reflexivity|]. split; [|exact O6].
      destruct Ch as (k0 & k1 & k2 & k3 & C1 & C2 & C3). exists l', k0, k1, k2, k3. auto.
    + destruct (Z.eq_dec n 3) as [E3|N3].
      * rewrite E3 in *. exists OutOfBounds. unfold bindM at 1.
        assert (X : exists a b c, l = [a; b; c]). { destruct l as [|a [|b [|c [|d l]]]]; cbn in nE; try lia. eauto. }
        destruct X as (a & b & c & ->). cbn [map] in R.
        rewrite (three_overflow fuel w h (s32 ow) (s32 oh) kk i pts (bnew 3) (zpt a) (zpt b) (zpt c) _ s2 O2 Hf); auto.
        -- right. right. left. reflexivity.
        -- left. reflexivity.
      * apply (Few n (Ptr kk) s2 i O2). lia.
Qed.

(** ** Altogether *)
Section All.
Variables (fuel : nat) (w h : Z) (b : buf Z).
Variable Qw : Z -> Z -> buf Z -> buf Z -> buf (f64 * f64) -> (Z -> Z -> Z) -> Prop.
Variable Qf : Z -> Z -> (Z -> Z -> Z) -> buf Z -> buf Z -> Prop.
Hypothesis Hfuel : (8 <= fuel)%nat.
Hypothesis HW : forall ow oh e framed mk s p q, edge_map w h b ow oh e -> framed_map ow oh e framed mk -> wf s ->
  holds s p framed -> holds_pts s q mk -> markers_ok (ow + 2) (oh + 2) mk 2 ->
  returns_fresh s (watershed fuel (ow + 2) (oh + 2) p q 2 false s) (fun b' => exists L,
    coloured (ow + 2) (oh + 2) L b' /\ (forall x y, inside (ow + 2) (oh + 2) x y -> 0 <= L x y < 2) /\ seeded 2 mk L /\
    Qw ow oh e framed mk L).
Hypothesis HF : forall ow oh e framed mk L closed s p, edge_map w h b ow oh e -> framed_map ow oh e framed mk -> Qw ow oh e framed mk L ->
  closed_document ow oh L closed -> wf s -> holds s p closed ->
  returns_fresh s (foerstner_corner ow oh p (lit 3 2) s) (fun b' => image (ow * oh * 2) b' /\ Qf ow oh L closed b').

Lemma few_peaks ow oh resp l : 255 <= ow <= 256 -> 255 <= oh <= 256 -> peaks_found ow oh resp l -> Z.of_nat (length l) <= 65536.
Proof.
  intros Hw Hh (k & _ & P & _). destruct P as [So Mx _ _ _].
  assert (ND : NoDup l).
  { clear Mx. induction So as [|p l So IH F]; constructor; auto. intros I. rewrite Forall_forall in F. specialize (F _ I). unfold Spec_Peaks.before in F. lia. }
  assert (Inc : incl l (list_prod (map Z.of_nat (seq 0 256)) (map Z.of_nat (seq 0 256)))).
  { intros [x y] I. destruct (Mx _ I) as (H1 & H2 & _). cbn [fst snd] in *. apply in_prod; apply in_map_iff.
    - exists (Z.to_nat x). split; [lia|]. apply in_seq. lia.
    - exists (Z.to_nat y). split; [lia|]. apply in_seq. lia. }
  apply NoDup_incl_length in Inc; auto. rewrite prod_length, !map_length, !seq_length in Inc. lia.
Qed.

Lemma detect_gen p : 0 < w -> 0 < h -> w * h <= 1073741824 -> wf s -> holds s p b -> image (w * h * 4) b ->
  exists ow oh e framed mk L, edge_map w h b ow oh e /\ framed_map ow oh e framed mk /\ Qw ow oh e framed mk L /\
    ((detect_corners ex at2 asin fuel p w h s = Abort /\ forall x y, inside ow oh x y -> document L x y) \/
     exists closed resp l, closed_document ow oh L closed /\ Qf ow oh L closed resp /\ peaks_found ow oh resp l /\
       if (4 <=? Z.of_nat (length l)) then
         exists c s2 k pts iw wide, detect_corners ex at2 asin fuel p w h s = Ok (c, s2) /\ best_four at2 asin w h ow oh l c /\
           over s [(k, OPts pts); (iw, OBytes wide)] s2
       else exists u, detect_corners ex at2 asin fuel p w h s = UB u).
Proof.
  intros Hw Hh Hs Wf Hp Hb. assert (w <= 1073741824) by (clear -Hw Hh Hs; nia). assert (h <= 1073741824) by (clear -Hw Hh Hs; nia).
  unfold detect_corners. destruct Hp as (ipx & -> & Mp). cbn [is_null orb].
  replace ((w <=? 0) || (h <=? 0)) with false by lia.
  rewrite !u32_small by lia. pose proof (over_nil s Wf) as O0.
  assert (HG : returns_fresh s (grayscale w h (Ptr ipx) s) (gray_picture w h b)).
  { apply grayscale_ok; auto. - unfold dims_ok, is_u32, SIZE_MAX. lia. - exists ipx. auto. }
  destruct (over_fresh _ _ _ _ _ O0 Hall HG) as (ig & s1 & g & E1 & G1 & O1).
  rewrite (bindM_Ok _ _ _ _ _ E1). cbv beta. cbn [is_null]. clear E1 HG.
  destruct (elevation_ok [] s1 ig w h b g O1 Hw Hh ltac:(lia) G1) as (ow & oh & e & ie & s2 & E2 & EM & O2).
  rewrite (bindM_Ok _ _ _ _ _ E2). cbv beta iota. clear E2.
  pose proof EM as (_ & _ & Hw1 & Hh1 & _).
  assert (Ie : exact_image (ow * oh) e) by (destruct EM as (_ & _ & _ & _ & g' & sm & so & ed & D & X); apply X).
  destruct (segment_ok (fun framed mk L => (forall x y, inside (ow + 2) (oh + 2) x y -> 0 <= L x y < 2) /\ seeded 2 mk L /\ Qw ow oh e framed mk L)
    fuel [] s2 ie e ow oh O2 Hw1 Hh1 Ie) as (framed & mk & L & seg & ise & iw & wide & s3 & E3 & FM & (RL & SL & QL) & IN & O3).
  { intros. eapply HW; eauto. }
  rewrite (bindM_Ok _ _ _ _ _ E3). cbv beta. clear E3.
  assert (R01 : forall x y, inside ow oh x y -> L (x + 1) (y + 1) = 0 \/ L (x + 1) (y + 1) = 1).
  { intros x y Hi. assert (0 <= L (x + 1) (y + 1) < 2); [|lia]. apply RL. unfold inside in *. lia. }
  assert (D2x : (ow + 2) / 2 = 128 \/ (ow + 2) / 2 = 129) by (destruct (two_sizes ow Hw1) as [-> | ->]; [left|right]; reflexivity).
  assert (D2y : (oh + 2) / 2 = 128 \/ (oh + 2) / 2 = 129) by (destruct (two_sizes oh Hh1) as [-> | ->]; [left|right]; reflexivity).
  assert (Mid : exists x y, inside ow oh x y /\ L (x + 1) (y + 1) = 0).
  { destruct FM as (_ & M0 & M1 & M2 & M3). destruct (SL 0 ltac:(lia)) as (m' & Hm & Ex & Ey & El).
    exists ((ow + 2) / 2 - 1), ((oh + 2) / 2 - 1). split; [unfold inside; lia|]. rewrite !Z.sub_add, <- M0, <- M1, El.
    assert (m' = 0 \/ m' = 1) as [-> | ->] by lia; [reflexivity|]. rewrite M2 in Ex. lia. }
  exists ow, oh, e, framed, mk, L. split; [exact EM|]. split; [exact FM|]. split; [exact QL|].
  destruct (response_ok (Qf ow oh L) [(iw, OBytes wide)] s3 ise seg ow oh L O3 Hw1 Hh1 R01 Mid IN) as [[E4 AllD]|(closed & resp & ir & s4 & E4 & CD & Ir & Pr & O4)].
  { intros. eapply HF; eauto. }
  - left. split; [|exact AllD]. unfold bindM at 1. rewrite E4. reflexivity.
  - right. rewrite (bindM_Ok _ _ _ _ _ E4). cbv beta. clear E4.
    destruct (search_ok ow oh ir resp [(iw, OBytes wide)] 7 Hw1 Hh1 Ir 0 fuel s4 eq_refl ltac:(lia) O4 ltac:(intros; lia)) as (ip & B & l & s5 & E5 & PF & Bk & O5).
    cbn [threshold] in E5. rewrite (bindM_Ok _ _ _ _ _ E5). cbv beta. clear E5.
    destruct (over_free_in _ _ _ _ _ _ O5) as (s6 & E6 & O6). rewrite (bindM_Ok _ _ _ _ _ E6). cbv beta. cbn [is_null]. clear E6.
    exists closed, resp, l. split; [exact CD|]. split; [exact Pr|]. split; [exact PF|].
    pose proof (few_peaks ow oh resp l Hw1 Hh1 PF) as FP.
    assert (FO := finish_ok fuel w h ow oh ip l B [(iw, OBytes wide)] s6 ltac:(lia) ltac:(lia) Bk O6). unfold finish in FO.
    destruct (4 <=? Z.of_nat (length l)).
    + destruct FO as (c & s7 & k & pts & E7 & BF & O7). exists c, s7, k, pts, iw, wide. auto.
    + exact FO.
Qed.
End All.
End Detect.

(** With the general contracts of the two middle stages *)
Lemma detect_ok ex at2 asin fuel w h s p b : Spec_Blur.exp_ok ex -> atan2_ok at2 ->
  0 < w -> 0 < h -> w * h <= 1073741824 -> 66565 < Z.of_nat fuel -> wf s -> holds s p b -> image (w * h * 4) b ->
  (forall n, orc s n = true) ->
  exists ow oh e framed mk L, edge_map w h b ow oh e /\ framed_map ow oh e framed mk /\ two_regions (ow + 2) (oh + 2) framed mk L /\
    ((detect_corners ex at2 asin fuel p w h s = Abort /\ forall x y, inside ow oh x y -> document L x y) \/
     exists closed resp l, closed_document ow oh L closed /\ Spec_Foerstner.corner_picture ow oh 2 closed resp /\ peaks_found ow oh resp l /\
       if (4 <=? Z.of_nat (length l)) then
         exists c s2 k pts iw wide, detect_corners ex at2 asin fuel p w h s = Ok (c, s2) /\ best_four at2 asin w h ow oh l c /\
           over s [(k, OPts pts); (iw, OBytes wide)] s2
       else exists u, detect_corners ex at2 asin fuel p w h s = UB u).
Proof.
  intros He Ha Hw Hh Hs Hf Wf Hp Hb A.
  destruct (detect_gen ex at2 asin He Ha s A fuel w h b (fun ow oh e framed mk L => two_regions (ow + 2) (oh + 2) framed mk L)
    (fun ow oh L closed resp => Spec_Foerstner.corner_picture ow oh 2 closed resp)) with (p := p) as (ow & oh & e & framed & mk & L & H); auto.
  - lia.
  - intros ow oh e framed mk s' p' q' EM FM W' H' Q' MK. destruct EM as (_ & _ & Hw1 & Hh1 & _).
    assert (SZ : (ow + 2) * (oh + 2) <= 66564) by (clear -Hw1 Hh1; nia).
    assert (HR := watershed_regions fuel (ow + 2) (oh + 2) s' p' q' framed mk 2 W' ltac:(lia) ltac:(lia) ltac:(lia) ltac:(lia) H').
    eapply returns_fresh_weaken; [|apply HR; auto].
    + cbv beta. intros b' (L & C1 & C2 & C3 & C4 & C5). exists L. split; [exact C1|]. split; [exact C2|]. split; [exact C3|]. split; [exact C3|]. auto.
    + destruct FM as ((_ & _ & X & _) & _). rewrite Z.mul_1_r in X. apply X.
  - intros ow oh e framed mk L closed s' p' EM _ _ CD W' H'. destruct EM as (_ & _ & Hw1 & Hh1 & _).
    destruct sigma_3_2 as [S1 S2].
    assert (SZ : ow * oh <= 65536) by (clear -Hw1 Hh1; nia).
    assert (HR := foerstner_safe ow oh (lit 3 2) s' p' closed ltac:(lia) ltac:(lia) ltac:(unfold INT_MAX; lia) S1). rewrite S2 in HR.
    eapply returns_fresh_weaken; [|apply HR; auto; try lia].
    + intros b' C. split; [apply C|exact C].
    + apply CD.
  - exists ow, oh, e, framed, mk, L. exact H.
Qed.

Lemma over_two s i oi k ok s2 : over s [(i, oi); (k, ok)] s2 -> leaks_two s s2.
Proof.
  intros (W & La & ND & Fr & M). exists i, k. cbn in ND. inversion ND as [|? ? N1 N2]; subst. 
  split; [intros ->; apply N1; left; reflexivity|]. split; [apply Fr; cbn; auto|]. split; [apply Fr; cbn; auto|].
  rewrite !M. cbn. rewrite !Z.eqb_refl. split; [discriminate|]. split; [destruct (k =? i); discriminate|].
  intros j N3 N4. rewrite M. cbn. replace (j =? i) with false by lia. replace (j =? k) with false by lia. reflexivity.
Qed.

Lemma detect_main ex at2 asin fuel w h s p b : Spec_Blur.exp_ok ex -> atan2_ok at2 ->
  0 < w -> 0 < h -> w * h <= 1073741824 -> 66565 < Z.of_nat fuel -> wf s -> holds s p b -> image (w * h * 4) b ->
  (forall n, orc s n = true) ->
  detection at2 asin w h b s (detect_corners ex at2 asin fuel p w h s).
Proof.
  intros He Ha Hw Hh Hs Hf Wf Hp Hb A.
  destruct (detect_ok ex at2 asin fuel w h s p b He Ha Hw Hh Hs Hf Wf Hp Hb A) as (ow & oh & e & framed & mk & L & H1 & H2 & H3 & H4).
  exists ow, oh, e, framed, mk, L. split; [exact H1|]. split; [exact H2|]. split; [exact H3|]. destruct H4 as [H4|(closed & resp & l & C1 & C2 & C3 & C4)]; [left; exact H4|].
  right. exists closed, resp, l. split; [exact C1|]. split; [exact C2|]. split; [exact C3|].
  destruct (Z.leb_spec 4 (Z.of_nat (length l))).
  - left. split; [lia|]. destruct C4 as (c & s2 & k & pts & iw & wide & E & B & O). exists c, s2. split; [exact E|]. split; [exact B|].
    split; [exact (over_keeps _ _ _ O)|exact (over_two _ _ _ _ _ _ O)].
  - right. split; [lia|exact C4].
Qed.

Lemma detect_rejects ex at2 asin fuel w h s p : p = Null \/ w <= 0 \/ h <= 0 -> detect_corners ex at2 asin fuel p w h s = Abort.
Proof.
  intros H. unfold detect_corners. replace (is_null p || (w <=? 0) || (h <=? 0)) with true; [reflexivity|].
  symmetry. destruct H as [->|H]; [reflexivity|]. destruct p; [reflexivity|]. cbn [is_null]. lia.
Qed.

Lemma detect_no_memory ex at2 asin fuel w h s p b : wf s -> 0 < w -> 0 < h -> w * h <= 1073741824 ->
  holds s p b -> image (w * h * 4) b -> (forall n, (tick s <= n)%nat -> orc s n = false) ->
  exists s', same_mem s s' /\ detect_corners ex at2 asin fuel p w h s =
    Ok (mkc (d0, d0) (d_of_Z (w - 1), d0) (d_of_Z (w - 1), d_of_Z (h - 1)) (d0, d_of_Z (h - 1)), s').
Proof.
  intros Wf Hw Hh Hs Hp Hb Or. assert (w <= 1073741824) by (clear -Hw Hh Hs; nia). assert (h <= 1073741824) by (clear -Hw Hh Hs; nia).
  assert (HG := grayscale_ok w h s p b Wf ltac:(unfold dims_ok, is_u32, SIZE_MAX; lia) Hs Hp Hb).
  unfold detect_corners. destruct Hp as (ipx & -> & Mp). cbn [is_null orb]. replace ((w <=? 0) || (h <=? 0)) with false by lia.
  rewrite !u32_small by lia. destruct HG as (q & s' & E & La & H1). rewrite (bindM_Ok _ _ _ _ _ E). cbv beta.
  destruct q as [|i]; cbn [is_null].
  - exists s'. split; [apply H1|reflexivity].
  - exfalso. revert E. unfold grayscale.
    match goal with |- (if ?c then _ else _) s = _ -> _ => destruct c; [discriminate|] end.
    match goal with |- (if ?c then _ else _) s = _ -> _ => destruct c; [discriminate|] end. cbv zeta.
    match goal with |- (if ?c then _ else _) s = _ -> _ => destruct c; [discriminate|] end.
    unfold bindM at 1, malloc_bytes, alloc. rewrite (Or (tick s)) by lia. discriminate.
Qed.
