(** * Proofs about adding a border *)
From Verif Require Import Base BaseLemmas F Heap HeapLemmas Spec PaintLemmas Spec_Morph Spec_Trim Spec_Draw
  M_Color M_Draw P_Color P_Color3 P_Crop P_Draw.

Lemma border_px_ok w h ch cr cg cb gv x y data : inside w h x y ->
  (ch = 1 \/ ch = 3 \/ ch = 4) -> draw_luma cr cg cb = Ok gv -> w * h * ch <= blen data -> w * h * ch <= 4294967296 ->
  exists b', (let i := u32 (u32 (u32 (y * w) + x) * ch) in
    if ch =? 1 then v <- draw_luma cr cg cb ;; store data i v
    else if 3 <=? ch then
      data <- store data i cr ;;
      data <- store data (u32 (i + 1)) cg ;;
      data <- store data (u32 (i + 2)) cb ;;
      if ch =? 4 then store data (u32 (i + 3)) 255 else Ok data
    else Ok data) = Ok b' /\
    paints (fun j => colf ch cr cg cb gv (j mod ch)) (pixset w h ch (fun x' y' => x' = x /\ y' = y)) data b'.
Proof.
  intros Hin Hch Hg HL HS.
  destruct (px_size w h ch x y 0 Hin ltac:(lia) ltac:(lia)) as (B1 & B2 & B3 & _).
  pose proof (px_size w h ch x y (ch - 1) Hin ltac:(lia) ltac:(lia)) as (_ & _ & _ & B4).
  assert (w * h <= w * h * ch) by nia.
  rewrite (u32_small (y * w)) by (unfold U32; lia). rewrite (u32_small (y * w + x)) by (unfold U32; lia).
  rewrite (u32_small ((y * w + x) * ch)) by (unfold U32; lia). cbv zeta.
  destruct (Z.eqb_spec ch 1) as [Ec|Nc].
  - rewrite Hg, bind_Ok. subst ch. destruct (paints_store (fun j => colf 1 cr cg cb gv (j mod 1)) data ((y * w + x) * 1) gv) as (b' & E & P).
    { lia. } { reflexivity. }
    exists b'. split; auto. eapply paints_iff; [|exact P]. intros j. split.
    + intros ->. exists x, y, 0. split; auto. split; [lia|]. split; [auto|lia].
    + intros (x' & y' & c & _ & Hc & [-> ->] & ->). lia.
  - replace (3 <=? ch) with true by lia. set (i := (y * w + x) * ch) in *.
    assert (V : forall c, 0 <= c < ch -> (i + c) mod ch = c) by (intros c Hc; apply idx_mod; auto).
    set (v := fun j => colf ch cr cg cb gv (j mod ch)).
    rewrite (u32_small (i + 1)), (u32_small (i + 2)) by (unfold U32; lia).
    destruct (paints_store v data i cr) as (b1 & -> & P1); [lia| |].
    { unfold v. replace i with (i + 0) by ring. rewrite V by lia. unfold colf. replace (ch =? 1) with false by lia. reflexivity. }
    rewrite bind_Ok. pose proof (proj1 P1) as L1.
    destruct (paints_store v b1 (i + 1) cg) as (b2 & -> & P2); [lia| |].
    { unfold v. rewrite V by lia. unfold colf. replace (ch =? 1) with false by lia. reflexivity. }
    rewrite bind_Ok. pose proof (proj1 P2) as L2.
    destruct (paints_store v b2 (i + 2) cb) as (b3 & -> & P3); [lia| |].
    { unfold v. rewrite V by lia. unfold colf. replace (ch =? 1) with false by lia. reflexivity. }
    rewrite bind_Ok. pose proof (proj1 P3) as L3.
    pose proof (paints_trans _ _ _ _ _ _ P1 (paints_trans _ _ _ _ _ _ P2 P3)) as P.
    destruct (Z.eqb_spec ch 4) as [E4|N4].
    + rewrite (u32_small (i + 3)) by (unfold U32; lia).
      destruct (paints_store v b3 (i + 3) 255) as (b4 & -> & P4); [lia| |].
      { unfold v. rewrite V by lia. unfold colf. replace (ch =? 1) with false by lia. reflexivity. }
      exists b4. split; auto. eapply paints_iff; [|eapply paints_trans; [exact P|exact P4]]. intros j. split.
      * intros H'. exists x, y, (j - i). fold i. split; auto. split; [lia|]. split; [auto|lia].
      * intros (x' & y' & c & _ & Hc & [-> ->] & ->). fold i. lia.
    + exists b3. split; auto. eapply paints_iff; [|exact P]. intros j. split.
      * intros H'. exists x, y, (j - i). fold i. split; auto. split; [lia|]. split; [auto|lia].
      * intros (x' & y' & c & _ & Hc & [-> ->] & ->). fold i. lia.
Qed.

Lemma border_fill_ok w h ch cr cg cb gv data : (ch = 1 \/ ch = 3 \/ ch = 4) -> draw_luma cr cg cb = Ok gv ->
  w * h * ch <= blen data -> w * h * ch <= 4294967296 ->
  exists b', border_fill w h ch (cr, cg, cb) data = Ok b' /\
    paints (fun j => colf ch cr cg cb gv (j mod ch)) (pixset w h ch (fun _ _ => True)) data b'.
Proof.
  intros Hch Hg HL HS. unfold border_fill.
  edestruct (for_paints (fun j => colf ch cr cg cb gv (j mod ch)) (fun y j => exists x, 0 <= x < w /\ pixset w h ch (fun x' y' => x' = x /\ y' = y) j) 0 h)
    as (b' & E & P); [reflexivity| |].
  2: { exists b'. split; [exact E|]. eapply paints_iff; [|exact P]. intros j. split.
       - intros (y & Hy & x & Hx & x' & y' & c & Hin & Hc & _ & ->). exists x', y', c. auto.
       - intros (x & y & c & Hin & Hc & _ & ->). exists y. destruct Hin. split; auto. exists x. split; auto.
         exists x, y, c. split; [split; auto|]. auto. }
  intros y b Hy Lb. cbv beta.
  edestruct (for_paints (fun j => colf ch cr cg cb gv (j mod ch)) (fun x j => pixset w h ch (fun x' y' => x' = x /\ y' = y) j) 0 w)
    as (b1 & E1 & P1); [exact Lb| |exists b1; split; [exact E1|exact P1]].
  intros x b2 Hx Lb2. cbv beta. apply border_px_ok; auto; [split; auto|lia].
Qed.

Lemma border_copy_ok w h ch bw src data : 0 < ch -> 0 < w -> 0 < h -> 0 <= bw ->
  let ow := w + 2 * bw in let oh := h + 2 * bw in
  image (w * h * ch) src -> ow * oh * ch <= blen data -> ow * oh * ch <= 4294967296 ->
  exists b', border_copy w h ch bw ow src data = Ok b' /\
    paints (fun j => val src (((j / ch / ow - bw) * w + (j / ch mod ow - bw)) * ch + j mod ch))
      (pixset ow oh ch (fun x y => inside w h (x - bw) (y - bw))) data b'.
Proof.
  intros Hch Hw Hh Hbw ow oh Hi HL HS. unfold border_copy.
  assert (HwO : w <= ow /\ h <= oh) by lia. assert (HSS : w * h * ch <= ow * oh * ch).
  { apply Z.mul_le_mono_nonneg_r; [lia|]. apply Z.mul_le_mono_nonneg; lia. }
  set (v := fun j => val src (((j / ch / ow - bw) * w + (j / ch mod ow - bw)) * ch + j mod ch)).
  assert (V : forall x y c, inside ow oh x y -> 0 <= c < ch -> v ((y * ow + x) * ch + c) = val src (((y - bw) * w + (x - bw)) * ch + c)).
  { intros x y c [Hx Hy] Hc. unfold v. f_equal. rewrite idx_mod by auto.
    rewrite (Z.add_comm ((y * ow + x) * ch) c), Z.div_add by lia. rewrite (Z.div_small c ch) by auto. rewrite Z.add_0_l.
    rewrite (Z.add_comm (y * ow) x), Z.div_add, Z.mod_add by lia. rewrite (Z.div_small x ow), (Z.mod_small x ow) by auto. reflexivity. }
  edestruct (for_paints v (fun y j => exists x, 0 <= x < w /\ pixset ow oh ch (fun x' y' => x' = x + bw /\ y' = y + bw) j) 0 h)
    as (b' & E & P); [reflexivity| |].
  2: { exists b'. split; [exact E|]. eapply paints_iff; [|exact P]. intros j. split.
       - intros (y & Hy & x & Hx & x' & y' & c & Hin & Hc & [-> ->] & ->). exists (x + bw), (y + bw), c. do 2 (split; auto).
         split; auto. split; lia.
       - intros (x & y & c & Hin & Hc & [Hx Hy] & ->). exists (y - bw). split; auto. exists (x - bw). split; auto.
         exists x, y, c. split; auto. split; auto. split; [lia|auto]. }
  intros y b Hy Lb. cbv beta.
  edestruct (for_paints v (fun x j => pixset ow oh ch (fun x' y' => x' = x + bw /\ y' = y + bw) j) 0 w)
    as (b1 & E1 & P1); [exact Lb| |exists b1; split; [exact E1|exact P1]].
  intros x b2 Hx Lb2. cbv beta.
  assert (Hin : inside w h x y) by (split; auto). assert (HinO : inside ow oh (x + bw) (y + bw)) by (split; lia).
  assert (A0 : ow <= ow * oh /\ oh <= ow * oh /\ ow * oh <= ow * oh * ch) by nia.
  assert (A2 : w * h <= w * h * ch) by nia.
  edestruct (for_paints v (fun c j => j = ((y + bw) * ow + (x + bw)) * ch + c) 0 ch) as (b3 & E3 & P3); [exact Lb2| |].
  2: { exists b3. split; [exact E3|]. eapply paints_iff; [|exact P3]. intros j. split.
       - intros (c & Hc & ->). exists (x + bw), (y + bw), c. auto.
       - intros (x' & y' & c & _ & Hc & [-> ->] & ->). exists c. auto. }
  intros c b4 Hc Lb4. cbv beta.
  destruct (px_size w h ch x y c Hin ltac:(lia) Hc) as (B1 & B2 & B3 & B4).
  destruct (px_size ow oh ch (x + bw) (y + bw) c HinO ltac:(lia) Hc) as (D1 & D2 & D3 & D4).
  rewrite (u32_small (y * w)) by (unfold U32; lia). rewrite (u32_small (y * w + x)) by (unfold U32; lia).
  rewrite (u32_small ((y * w + x) * ch)) by (unfold U32; lia). rewrite (u32_small ((y * w + x) * ch + c)) by (unfold U32; lia).
  rewrite (u32_small (y + bw)), (u32_small (x + bw)) by (unfold U32; lia).
  rewrite (u32_small ((y + bw) * ow)) by (unfold U32; lia). rewrite (u32_small ((y + bw) * ow + (x + bw))) by (unfold U32; lia).
  rewrite (u32_small (((y + bw) * ow + (x + bw)) * ch)) by (unfold U32; lia).
  rewrite (u32_small (((y + bw) * ow + (x + bw)) * ch + c)) by (unfold U32; lia).
  rewrite (image_load (w * h * ch)) by (auto; lia). rewrite bind_Ok.
  apply paints_store; [lia|]. rewrite V by auto. now replace (y + bw - bw) with y by ring; replace (x + bw - bw) with x by ring.
Qed.

Lemma add_border_exact w h ch hex bw s p b ow0 oh0 cr cg cb : wf s ->
  0 < w -> 0 < h -> (ch = 1 \/ ch = 3 \/ ch = 4) -> 0 < bw ->
  (w + 2 * bw) * (h + 2 * bw) * ch <= 4294967296 ->
  holds s p b -> image (w * h * ch) b -> parse_hex_color hex = Ok (cr, cg, cb) ->
  exists gv, draw_luma cr cg cb = Ok gv /\ drawn_colour ch cr cg cb (colf ch cr cg cb gv) /\
  returns_sized s (add_border w h ch (Some hex) bw p ow0 oh0 s) (bordered w h ch bw (colf ch cr cg cb gv) b).
Proof.
  intros Hwf Hw Hh Hch Hbw HS (d & -> & Hb) Hi Hhex.
  assert (Bc : byte cr /\ byte cg /\ byte cb). { apply (parse_hex_bytes hex). rewrite parse_hex_pure in Hhex. now injection Hhex. }
  destruct Bc as (Br & Bg & Bb). destruct (draw_luma_ok cr cg cb Br Bg Bb) as (gv & Eg & Sg).
  exists gv. split; [exact Eg|]. split.
  { unfold drawn_colour, colf. destruct (Z.eqb_spec ch 1); [exact Sg|]. cbn. auto. }
  unfold add_border. change (is_null (Ptr d)) with false.
  replace (w =? 0) with false by lia. replace (h =? 0) with false by lia. replace (ch =? 0) with false by lia.
  replace (bw =? 0) with false by lia. cbn [orb].
  set (ow := w + 2 * bw) in *. set (oh := h + 2 * bw) in *.
  assert (A0 : 3 <= ow /\ 3 <= oh) by lia.
  assert (A1 : ow * 3 <= ow * oh /\ oh * 3 <= ow * oh /\ ow * oh <= ow * oh * ch) by nia.
  assert (G1 : ((4294967295 - w) / 2 <? bw) = false). { Z.div_mod_to_equations. lia. }
  assert (G2 : ((4294967295 - h) / 2 <? bw) = false). { Z.div_mod_to_equations. lia. }
  rewrite G1, G2. cbn [orb]. cbv iota. rewrite Hhex, (bindM_lift _ _ _ _ eq_refl). cbv zeta.
  rewrite (u32_small (2 * bw)) by (unfold U32; lia). fold ow oh.
  rewrite (u32_small ow), (u32_small oh) by (unfold U32; lia).
  assert (G3 : (SIZE_MAX / oh <? ow) = false).
  { apply Z.ltb_ge. apply Z.div_le_lower_bound; unfold SIZE_MAX; lia. }
  rewrite G3. rewrite (u64_small (ow * oh)) by (unfold U64; lia).
  assert (G4 : (SIZE_MAX / ch <? ow * oh) = false).
  { apply Z.ltb_ge. apply Z.div_le_lower_bound; unfold SIZE_MAX; lia. }
  rewrite G4. rewrite (u64_small (ow * oh * ch)) by (unfold U64; lia). set (n := ow * oh * ch) in *.
  destruct (border_fill_ok ow oh ch cr cg cb gv (bnew n) Hch Eg ltac:(simpl; lia) HS) as (b1 & E1 & P1).
  destruct (border_copy_ok w h ch bw b b1 ltac:(lia) Hw Hh ltac:(lia) Hi) as (b2 & E2 & P2).
  { rewrite (proj1 P1). apply Z.le_refl. } { exact HS. }
  fold ow oh in E2, P2.
  assert (Q : bordered w h ch bw (colf ch cr cg cb gv) b ow oh b2).
  { split; [reflexivity|]. split; [reflexivity|].
    pose proof (paints_painted ow oh ch _ _ _ _ ltac:(lia) ltac:(lia) ltac:(lia) P1) as (L1 & Q1 & _).
    assert (Px : forall x y c, inside ow oh x y -> 0 <= c < ch -> pix b2 ow ch x y c =
      if (bw <=? x) && (x <? bw + w) && (bw <=? y) && (y <? bw + h)
      then pix b w ch (x - bw) (y - bw) c else Some (colf ch cr cg cb gv c)).
    { intros x y c Hin Hc. destruct P2 as [L2 P2]. destruct (P2 ((y * ow + x) * ch + c)) as [Ha Hb'].
      destruct (Q1 x y c Hin Hc) as [Q1a _]. specialize (Q1a I). unfold pix in *.
      assert (Dv : ((y * ow + x) * ch + c) / ch = y * ow + x).
      { rewrite (Z.add_comm ((y * ow + x) * ch) c), Z.div_add by lia. rewrite (Z.div_small c ch) by auto. reflexivity. }
      assert (Dw : (y * ow + x) / ow = y /\ (y * ow + x) mod ow = x).
      { destruct Hin. rewrite (Z.add_comm (y * ow) x), Z.div_add, Z.mod_add by lia. rewrite (Z.div_small x ow), (Z.mod_small x ow) by auto. split; reflexivity. }
      destruct Dw as [Dw1 Dw2]. rewrite Dv, Dw1, Dw2, idx_mod in * by auto.
      destruct (Z.leb_spec bw x) as [C1|C1]; cbn [andb];
      [destruct (Z.ltb_spec x (bw + w)) as [C2|C2]; cbn [andb];
       [destruct (Z.leb_spec bw y) as [C3|C3]; cbn [andb];
        [destruct (Z.ltb_spec y (bw + h)) as [C4|C4]|]|]|].
      - rewrite Ha.
        + symmetry. apply (image_val (w * h * ch) b). exact Hi.
          assert (Hin' : inside w h (x - bw) (y - bw)) by (split; lia).
          pose proof (px_size w h ch _ _ c Hin' ltac:(lia) Hc). lia.
        + exists x, y, c. split; auto. split; auto. split; auto. split; lia.
      - destruct Hb' as [-> |[(x' & y' & c' & Hin' & Hc' & [Hpx Hpy] & E) _]]; [exact Q1a|]. exfalso.
        assert (c' = c) by (rewrite <- (idx_mod ow ch x y c Hc), <- (idx_mod ow ch x' y' c' Hc'); congruence). subst c'.
        assert (Ei : y * ow + x = y' * ow + x') by nia. destruct Hin, Hin'. destruct (rm_inj ow x y x' y') as [-> ->]; auto. lia.
      - destruct Hb' as [-> |[(x' & y' & c' & Hin' & Hc' & [Hpx Hpy] & E) _]]; [exact Q1a|]. exfalso.
        assert (c' = c) by (rewrite <- (idx_mod ow ch x y c Hc), <- (idx_mod ow ch x' y' c' Hc'); congruence). subst c'.
        assert (Ei : y * ow + x = y' * ow + x') by nia. destruct Hin, Hin'. destruct (rm_inj ow x y x' y') as [-> ->]; auto. lia.
      - destruct Hb' as [-> |[(x' & y' & c' & Hin' & Hc' & [Hpx Hpy] & E) _]]; [exact Q1a|]. exfalso.
        assert (c' = c) by (rewrite <- (idx_mod ow ch x y c Hc), <- (idx_mod ow ch x' y' c' Hc'); congruence). subst c'.
        assert (Ei : y * ow + x = y' * ow + x') by nia. destruct Hin, Hin'. destruct (rm_inj ow x y x' y') as [-> ->]; auto. lia.
      - destruct Hb' as [-> |[(x' & y' & c' & Hin' & Hc' & [Hpx Hpy] & E) _]]; [exact Q1a|]. exfalso.
        assert (c' = c) by (rewrite <- (idx_mod ow ch x y c Hc), <- (idx_mod ow ch x' y' c' Hc'); congruence). subst c'.
        assert (Ei : y * ow + x = y' * ow + x') by nia. destruct Hin, Hin'. destruct (rm_inj ow x y x' y') as [-> ->]; auto. lia. }
    split; [|exact Px].
    assert (Lb2 : blen b2 = n) by (rewrite (proj1 P2), L1; reflexivity).
    split; [exact Lb2|]. split; [lia|]. intros i Hin.
    destruct (px_decomp ow oh ch i) as (x & y & c & Hx & Hy & Hc & Ei); [lia|lia|exact Hin|].
    specialize (Px x y c (conj Hx Hy) Hc). unfold pix in Px at 1. rewrite <- Ei in Px. rewrite Px.
    destruct ((bw <=? x) && (x <? bw + w) && (bw <=? y) && (y <? bw + h)) eqn:Ec.
    - unfold pix. destruct Hi as [_ Hi]. apply Hi.
      assert (Hin' : inside w h (x - bw) (y - bw)) by (split; lia).
      pose proof (px_size w h ch _ _ c Hin' ltac:(lia) Hc). lia.
    - eexists; split; [reflexivity|]. unfold colf. destruct (ch =? 1); [apply Sg|].
      destruct (c =? 0), (c =? 1), (c =? 2); auto; unfold byte; lia. }
  assert (d < nxt s) by (eapply holds_lt; eauto).
  unfold malloc_bytes. destruct (alloc_cases s (OBytes (bnew n)) Hwf) as [[E O]|[E O]].
  - rewrite (bindM_Ok _ _ _ _ _ E). exists Null, ow, oh, (mkst (mem s) (nxt s) (orc s) (S (tick s))).
    split; [reflexivity|]. split; [|split].
    + split; [apply wf_tick; auto|simpl; repeat split; lia].
    + intros i; reflexivity.
    + exists (tick s); split; auto; simpl; lia.
  - rewrite (bindM_Ok _ _ _ _ _ E). cbn beta iota delta [is_null].
    set (s1 := mkst (upd (mem s) (nxt s) (Some (OBytes (bnew n)))) (nxt s + 1) (orc s) (S (tick s))).
    rewrite (bindM_Ok _ _ _ (bnew n) s1) by (apply get_bytes_ok; simpl; rewrite upd_same; auto). cbv beta.
    rewrite (bindM_lift _ _ _ _ E1). cbv beta.
    rewrite (bindM_Ok _ _ _ b s1) by (apply get_bytes_ok; simpl; rewrite upd_other by lia; auto). cbv beta.
    rewrite (bindM_lift _ _ _ _ E2). cbv beta.
    erewrite bindM_Ok by (apply put_bytes_ok with (o := OBytes (bnew n)); simpl; rewrite upd_same; reflexivity).
    unfold ret. eexists _, _, _, _. split; [reflexivity|].
    split; [|split; [|split]].
    + split; [|simpl; repeat split; lia].
      intros i Hi'. cbn [mem nxt s1] in Hi' |- *. rewrite upd_other by lia. rewrite upd_other by lia. apply Hwf; lia.
    + apply Hwf; lia.
    + exists b2. cbn [mem]. rewrite upd_same; auto.
    + intros j Hj. cbn [mem s1]. now rewrite !upd_other.
Qed.
Lemma add_border_ok w h ch hex bw s p b ow0 oh0 cr cg cb : wf s ->
  0 < w -> 0 < h -> (ch = 1 \/ ch = 3 \/ ch = 4) -> 0 < bw ->
  (w + 2 * bw) * (h + 2 * bw) * ch <= 4294967296 ->
  holds s p b -> image (w * h * ch) b -> parse_hex_color hex = Ok (cr, cg, cb) ->
  exists col, drawn_colour ch cr cg cb col /\
  returns_sized s (add_border w h ch (Some hex) bw p ow0 oh0 s) (bordered w h ch bw col b).
Proof.
  intros Hwf Hw Hh Hch Hbw HS Hp Hi Hhex.
  destruct (add_border_exact w h ch hex bw s p b ow0 oh0 cr cg cb Hwf Hw Hh Hch Hbw HS Hp Hi Hhex) as (gv & _ & C & R).
  exists (colf ch cr cg cb gv). auto.
Qed.

Lemma add_border_rejects w h ch hex bw s p ow0 oh0 :
  is_u32 w -> is_u32 h -> is_u32 ch -> is_u32 bw ->
  (p = Null \/ hex = None \/ w = 0 \/ h = 0 \/ ch = 0 \/ bw = 0 \/ 4294967295 < w + 2 * bw \/ 4294967295 < h + 2 * bw) ->
  add_border w h ch hex bw p ow0 oh0 s = Ok (Null, ow0, oh0, s).
Proof.
  unfold is_u32. intros Hw Hh Hc Hbw H. unfold add_border. destruct hex as [hex|]; [|reflexivity].
  destruct (is_null p) eqn:En; [reflexivity|]. destruct (Z.eqb_spec bw 0); [reflexivity|].
  destruct (Z.eqb_spec ch 0); [reflexivity|]. cbn [orb].
  destruct (Z.eqb_spec w 0); [reflexivity|]. destruct (Z.eqb_spec h 0); [reflexivity|]. cbn [orb].
  destruct (Z.ltb_spec ((4294967295 - w) / 2) bw); [reflexivity|].
  destruct (Z.ltb_spec ((4294967295 - h) / 2) bw); [reflexivity|].
  exfalso. destruct H as [->|[Hh0|H]]; [discriminate|discriminate|]. Z.div_mod_to_equations. lia.
Qed.

(** ** Beyond 2^32 bytes the 32-bit indices wrap *)
Lemma border_high w h ch cr cg cb data L : 0 <= w -> 0 <= h -> ch = 1 -> 4294967296 <= L -> blen data = L ->
  byte cr -> byte cg -> byte cb ->
  exists b', border_fill w h ch (cr, cg, cb) data = Ok b' /\ blen b' = L /\
    forall j, 4294967296 <= j -> bget b' j = bget data j.
Proof.
  intros Hw Hh -> HL Hd Br Bg Bb. destruct (draw_luma_ok cr cg cb Br Bg Bb) as (gv & Eg & Sg).
  unfold border_fill.
  destruct (for_inv (fun _ b => blen b = L /\ forall j, 4294967296 <= j -> bget b j = bget data j) 0 h
     (fun y data => for_ 0 w (fun x data =>
    let i := u32 (u32 (u32 (y * w) + x) * 1) in
    if 1 =? 1 then v <- draw_luma cr cg cb ;; store data i v
    else if 3 <=? 1 then
      data <- store data i cr ;; data <- store data (u32 (i + 1)) cg ;; data <- store data (u32 (i + 2)) cb ;;
      if 1 =? 4 then store data (u32 (i + 3)) 255 else Ok data
    else Ok data) data) data) as (b' & E & I1 & I2); auto.
  2: { exists b'. split; [exact E|auto]. }
  intros y b Hy [I1 I2].
  destruct (for_inv (fun _ b => blen b = L /\ forall j, 4294967296 <= j -> bget b j = bget data j) 0 w
     (fun x data =>
    let i := u32 (u32 (u32 (y * w) + x) * 1) in
    if 1 =? 1 then v <- draw_luma cr cg cb ;; store data i v
    else if 3 <=? 1 then
      data <- store data i cr ;; data <- store data (u32 (i + 1)) cg ;; data <- store data (u32 (i + 2)) cb ;;
      if 1 =? 4 then store data (u32 (i + 3)) 255 else Ok data
    else Ok data) b) as (b1 & E1 & I3); auto.
  2: { exists b1. split; [exact E1|auto]. }
  intros x b2 Hx [J1 J2]. cbv zeta. change (1 =? 1) with true. cbv iota. rewrite Eg, bind_Ok.
  pose proof (u32_range (u32 (u32 (y * w) + x) * 1)) as R. unfold U32 in R.
  rewrite store_ok by lia. eexists; split; [reflexivity|]. split; auto. intros j Hj.
  rewrite bget_bset_other by lia. auto.
Qed.
