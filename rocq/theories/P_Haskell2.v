From Coq Require Import Reals String List.
From Flocq Require Import Core BinarySingleNaN.
From Verif Require Import Base BaseLemmas F Heap HeapLemmas Spec M_Haskell Spec_Haskell P_Haskell.
From Verif Require Import M_Color M_Geom M_Trim M_Hist M_Morph M_Draw M_Resize M_Blur M_Sobel M_Watershed M_Foerstner M_Otsu M_Smart M_Cli.
From Verif Require Import Spec_Blur Spec_Watershed Spec_Hist Spec_Draw Spec_Sobel Spec_Foerstner Spec_Morph.
From Verif Require Spec_Trim Spec_Resize Spec_Persp M_Persp.
From Verif Require Spec_Parse ExUtil P_PerspEx P_Color T_Color T_Crop T_Trim T_Resize T_Blur T_Smart T_Hist T_Draw T_Sobel T_Foerstner T_Morph T_Watershed T_Persp P_Watershed P_Color3.
Import ListNotations.
Open Scope Z_scope.

Lemma fresh_and s run (P Q : buf Z -> Prop) : (forall b, P b -> Q b) -> returns_fresh s run P -> returns_fresh s run (fun b => Q b /\ P b).
Proof. intros H. apply fresh_weaken. auto. Qed.

(** ** Gray pictures and blurring *)
Lemma hs_gray w h s v b : wf s -> dims_ok w h -> w * h < 4294967296 -> holds s (v_ptr v) b -> image (w * h * 4) b ->
  hs_returns s (hs_rgbaToGrayscale w h v s) (w * h) (fun b' =>
    forall x y, 0 <= x < w -> 0 <= y < h -> pix b' w 1 x y 0 = Some (gray_at b w x y)).
Proof.
  intros Hw Hd Hn Hh Hi. pose proof Hd as (? & ? & ? & ? & ?). apply with_ok; [|nia|].
  - apply T_Color.C13_rgba_to_grayscale; auto.
  - rewrite (u32_id (w * h)) by nia. apply u32_id. nia.
Qed.

Lemma hs_multi w h s v b : wf s -> dims_ok w h -> w * h < 1073741824 -> holds s (v_ptr v) b -> image (w * h) b ->
  hs_returns s (hs_singleToMultichannel w h v s) (w * h * 4) (fun b' =>
    forall x y, 0 <= x < w -> 0 <= y < h -> opaque_gray b' w x y (pixv b w 1 x y 0)).
Proof.
  intros Hw Hd Hn Hh Hi. pose proof Hd as (? & ? & ? & ? & ?). apply with_ok; [|nia|apply mul3_id; nia].
  apply T_Color.C13_single_to_multichannel; auto.
Qed.

Lemma hs_blur e w h r s v b : exp_ok e -> 0 < w -> 0 < h -> w * h < 1073741824 ->
  is_finite r = true -> (1 / 1000000000000 <= B2R r <= 1000)%R ->
  wf s -> holds s (v_ptr v) b -> image (w * h * 4) b ->
  hs_returns s (hs_gaussianBlur e w h r v s) (w * h * 4) (blurred w h (B2R r) b).
Proof.
  intros. apply with_ok; [|nia|apply mul3_id; nia]. apply fresh_and; [intros ? [? _]; auto|].
  apply T_Blur.C46_blur; auto; lia.
Qed.

Lemma hs_smart e w h dbl s v b : exp_ok e -> dims_ok w h -> w * h <= 100000000 ->
  wf s -> holds s (v_ptr v) b -> image (w * h * 4) b ->
  hs_returns s (hs_bwSmart e w h dbl v s) (w * h * 4) (calls (fun w h p => bw_smart e w h dbl p) w h b).
Proof.
  intros ? Hd ? ? ? ?. pose proof Hd as (? & ? & ? & ? & ?). apply with_ok; [|nia|apply mul3_id; nia].
  apply (fresh_calls (fun w h p => bw_smart e w h dbl p)); auto.
  eapply fresh_weaken; [|apply T_Smart.C71_smart; eauto]. intros ? [? _]; auto.
Qed.

Lemma hs_sobel1 w h s v b : 0 < w < 2147483648 -> 0 < h < 2147483648 -> w * h < 4294967296 ->
  wf s -> holds s (v_ptr v) b -> image (w * h) b ->
  hs_returns s (hs_sobelEdgeDetection w h 1 v s) (w * h) (edges_of w h (fun x y => pixv b w 1 x y 0)).
Proof.
  intros. apply with_ok; [|nia|rewrite mul3_id; nia]. apply fresh_and; [intros ? [? _]; auto|].
  apply T_Sobel.C45_sobel_gray; auto. unfold SIZE_MAX; nia.
Qed.

(** ** Pictures of another size *)
Lemma part_size a c w h ch m : 0 < a <= w -> 0 < c <= h -> 0 < ch -> w * h * ch <= m -> 0 < a * c /\ 0 < a * c * ch <= m /\ ch <= m.
Proof.
  intros. assert (0 < a * c) by nia. assert (a * c <= w * h) by nia. assert (a * c * ch <= w * h * ch) by nia.
  assert (ch <= a * c * ch) by nia. lia.
Qed.

Lemma hs_crop_ok w h ch x y cw chh s v b :
  wf s -> is_u32 w -> is_u32 h -> is_u32 ch -> 0 < ch -> w * h * ch < 4294967296 ->
  holds s (v_ptr v) b -> image (w * h * ch) b ->
  0 <= x -> 0 <= y -> 0 < cw -> 0 < chh -> x + cw <= w -> y + chh <= h ->
  hs_returns s (hs_crop w h ch x y cw chh v s) (cw * chh * ch) (fun b' =>
    forall px py c, 0 <= px < cw -> 0 <= py < chh -> 0 <= c < ch ->
      pix b' cw ch px py c = pix b w ch (x + px) (y + py) c).
Proof.
  intros. destruct (part_size cw chh w h ch 4294967295) as (? & ? & ?); [lia|lia|lia|lia|].
  apply with_ok; [|lia|apply mul3_id; lia].
  apply T_Crop.C06_crop; auto. unfold SIZE_MAX; lia.
Qed.

Lemma bind_sized (f : M (ptr * Z * Z)) (len : Z -> Z -> Z) s :
  (r <-- f ;; let '(outPtr, outW, outH) := r in
   if is_null outPtr then ret None else ret (Some (outW, outH, makeVector outPtr (len outW outH)))) s =
  match f s with Ok (outPtr, outW, outH, s') =>
     if is_null outPtr then Ok (None, s') else Ok (Some (outW, outH, makeVector outPtr (len outW outH)), s')
     | UB u => UB u | Hang => Hang | Abort => Abort end.
Proof. unfold bindM. destruct (f s) as [[[[p w] h] s']| | |]; auto. now destruct (is_null p). Qed.

Lemma mul3_id' a b c : 0 <= a * b -> 0 < c -> a * b * c < 4294967296 -> mul3 a b c = a * b * c.
Proof. intros. rewrite <- (mul3_id a b c) by auto. unfold mul3. now rewrite !u32_id with (x := u32 _) by (apply Z.mod_pos_bound; reflexivity). Qed.

Lemma hs_resize_ok w h rx ry s v b :
  0 < w -> 0 < h -> w * h * 4 <= 4294967296 -> Spec_Resize.factor_ok w rx -> Spec_Resize.factor_ok h ry ->
  Spec_Resize.out_size w rx * Spec_Resize.out_size h ry * 4 < 4294967296 ->
  wf s -> holds s (v_ptr v) b -> image (w * h * 4) b ->
  hs_returns_sized s (hs_resize w h rx ry v s) (fun w' h' => w' * h' * 4) (fun w' h' b' =>
    w' = Spec_Resize.out_size w rx /\ h' = Spec_Resize.out_size h ry /\ Spec_Resize.resized w h rx ry b b').
Proof.
  intros Hw Hh Hn Hx Hy Ho Hwf Hhold Hi. pose proof Hx as (_ & _ & _ & Hx1). pose proof Hy as (_ & _ & _ & Hy1).
  unfold hs_resize. rewrite (bind_sized _ (fun w h => mul3 w h 4)). apply sized_ok.
  - destruct (T_Resize.C43_resize w h rx ry 0 0 s (v_ptr v) b) as (p & s' & Hr & Hla & H); auto; [lia|].
    exists p, (Spec_Resize.out_size w rx), (Spec_Resize.out_size h ry), s'. split; [exact Hr|]. split; [exact Hla|].
    destruct p; [exact H|]. destruct H as (H1 & (b' & H2 & H3) & H4). split; [exact H1|]. split; [|exact H4]. exists b'. auto.
  - intros w' h' b' (-> & -> & He & _). split; [nia|]. split; [apply mul3_id'; nia|exact He].
Qed.

Lemma box_small tol b w h ch l r t bt : Spec_Trim.trim_box tol b w h ch l r t bt -> 0 < r - l <= w /\ 0 < bt - t <= h.
Proof. intros (? & ? & ? & ? & _). lia. Qed.

Lemma hs_trim_ok w h ch s v b :
  wf s -> 0 < w <= 2147483647 -> 0 < h <= 2147483647 -> 0 < ch -> w * h * ch <= 2147483647 ->
  holds s (v_ptr v) b -> image (w * h * ch) b ->
  hs_returns_sized s (hs_trim w h ch v s) (fun w' h' => w' * h' * ch) (fun w' h' b' =>
    exists l r t bt, Spec_Trim.trim_box 0 b w h ch l r t bt /\ Spec_Trim.is_box b w ch l r t bt w' h' b').
Proof.
  intros. unfold hs_trim. rewrite (bind_sized _ (fun w h => mul3_i32 w h (s32 ch))). apply sized_ok.
  - apply T_Trim.C08_trim; auto; lia.
  - intros w' h' b' (l & r & t & bt & Hb & (-> & -> & He & _)). pose proof (box_small _ _ _ _ _ _ _ _ _ Hb) as [? ?].
    destruct (part_size (r - l) (bt - t) w h ch 2147483647) as (? & ? & ?); auto.
    rewrite (s32_id ch) by lia. split; [lia|]. split; [apply mul3_i32_id; lia|exact He].
Qed.

Lemma hs_trim_threshold_ok : exists T : f64 -> Z,
  (forall n, 0 <= n <= 100 -> T (d_of_Z n) = n * 255 / 100) /\
  forall w h ch s v b pct,
  wf s -> 0 < w <= 2147483647 -> 0 < h <= 2147483647 -> 0 < ch -> w * h * ch <= 2147483647 ->
  holds s (v_ptr v) b -> image (w * h * ch) b -> dfinite pct = true ->
  hs_returns_sized s (hs_trimThreshold w h ch pct v s) (fun w' h' => w' * h' * ch) (fun w' h' b' =>
    exists l r t bt, Spec_Trim.trim_box (T pct) b w h ch l r t bt /\ Spec_Trim.is_box b w ch l r t bt w' h' b').
Proof.
  destruct T_Trim.C09_trim_threshold as (T & HT & _ & _ & _ & H). exists T. split; [exact HT|].
  intros. unfold hs_trimThreshold. rewrite (bind_sized _ (fun w h => mul3_i32 w h (s32 ch))). apply sized_ok.
  - apply H; auto; lia.
  - intros w' h' b' (l & r & t & bt & Hb & (-> & -> & He & _)). pose proof (box_small _ _ _ _ _ _ _ _ _ Hb) as [? ?].
    destruct (part_size (r - l) (bt - t) w h ch 2147483647) as (? & ? & ?); auto.
    rewrite (s32_id ch) by lia. split; [lia|]. split; [apply mul3_i32_id; lia|exact He].
Qed.

Lemma hs_border_ok w h ch hex bw s v b cr cg cb : wf s ->
  0 < w -> 0 < h -> (ch = 1 \/ ch = 3 \/ ch = 4) -> 0 < bw ->
  (w + 2 * bw) * (h + 2 * bw) * ch < 4294967296 ->
  holds s (v_ptr v) b -> image (w * h * ch) b -> parse_hex_color hex = Ok (cr, cg, cb) ->
  exists col, drawn_colour ch cr cg cb col /\
  hs_returns_sized s (hs_addBorder w h ch hex bw v s) (fun w' h' => w' * h' * ch) (bordered w h ch bw col b).
Proof.
  intros. destruct (T_Draw.C26_add_border w h ch hex bw s (v_ptr v) b 0 0 cr cg cb) as (col & Hc & H'); auto; [lia|].
  exists col. split; [exact Hc|]. unfold hs_addBorder. rewrite (bind_sized _ (fun w h => mul3 w h ch)). apply sized_ok; [exact H'|].
  intros w' h' b' (-> & -> & He & _). split; [nia|]. split; [apply mul3_id'; nia|exact He].
Qed.

Lemma hs_histogram_ok w h ch s v b :
  wf s -> 0 < w -> 0 < h -> 0 < ch -> w * h * ch <= SIZE_MAX -> holds s (v_ptr v) b -> image (w * h * ch) b ->
  (forall c v, 0 <= c < counted ch -> 0 <= v < 256 -> level_count b (w * h) ch c v <= 21474836) ->
  hs_returns_sized s (hs_generateHistogram w h ch v s) (fun w' h' => w' * h' * 4) (fun w' h' b' => w' = 256 /\ h' = 200 /\
    exists bars, bar_chart bars b' /\ hist_bars b (w * h) ch bars).
Proof.
  intros. unfold hs_generateHistogram. rewrite (bind_sized _ (fun w h => mul3 w h 4)). apply sized_ok.
  - apply T_Hist.C27_histogram; auto.
  - intros w' h' b' (-> & -> & bars & (He & _) & _). split; [lia|]. split; [reflexivity|exact He].
Qed.

(** ** Functions that need a block for their arguments *)
Definition with_block (s : st) (o : obj) : st := mkst (upd (mem s) (nxt s) (Some o)) (nxt s + 1) (orc s) (S (tick s)).

Lemma holds_block s o p b : wf s -> holds s p b -> holds (with_block s o) p b.
Proof.
  intros Hw (i & -> & Hm). exists i. split; [reflexivity|]. cbn. rewrite upd_other; auto. apply holds_lt in Hm; auto. lia.
Qed.

Lemma scratch_vec s o s2 v n P : wf s -> later (with_block s o) s2 -> 0 <= n -> new_vec (with_block s o) s2 v n P ->
  exists s3, free (Ptr (nxt s)) s2 = Ok (tt, s3) /\ later s s3 /\ new_vec s s3 v n P.
Proof.
  intros Hw (L1 & L2 & L3 & L4) Hn (Hl & i & b & Hp & Hf & Hm & Ho & He & HP & _). cbn [nxt mem orc tick with_block] in *.
  assert (i <> nxt s). { intros ->. rewrite upd_same in Hf. discriminate. }
  assert (Hb : mem s2 (nxt s) = Some o). { rewrite Ho by auto. apply upd_same. }
  rewrite (free_ok _ _ _ Hb). eexists. split; [reflexivity|].
  assert (Hla : later s (mkst (upd (mem s2) (nxt s) None) (nxt s2) (orc s2) (tick s2))).
  { split; [|cbn; repeat split; auto; lia]. intros j Hj. cbn in *. unfold upd. destruct (j =? nxt s); auto. }
  split; [exact Hla|]. destruct v as [q l]. cbn in Hl, Hp. subst q l. eapply new_vec_intro with (b := b); auto.
  - rewrite upd_other in Hf by auto. exact Hf.
  - cbn. rewrite upd_other; auto.
  - intros j Hj. cbn. unfold upd at 1. destruct (Z.eqb_spec j (nxt s)).
    + subst. symmetry. apply Hw. lia.
    + rewrite Ho by auto. apply upd_other; auto.
Qed.

Lemma hs_watershed_ok fuel w h markers bnd s v b :
  wf s -> 0 < w -> 0 < h -> w * h < 1073741824 -> w * h + 1 < Z.of_nat fuel -> (forall n, orc s n = true) ->
  holds s (v_ptr v) b -> image (w * h) b -> markers_ok w h (of_list markers) (Z.of_nat (length markers)) ->
  hs_returns s (hs_watershedSegmentation fuel w h markers bnd v s) (w * h * 4)
    (fun b' => forall m, 0 <= m < Z.of_nat (length markers) ->
       (forall m', 0 <= m' < Z.of_nat (length markers) -> m' <> m ->
          (mx (of_list markers) m', my (of_list markers) m') <> (mx (of_list markers) m, my (of_list markers) m)) ->
       (pixv b' w 4 (mx (of_list markers) m) (my (of_list markers) m) 0,
        pixv b' w 4 (mx (of_list markers) m) (my (of_list markers) m) 1,
        pixv b' w 4 (mx (of_list markers) m) (my (of_list markers) m) 2) = region_colour m).
Proof.
  intros Hw Hw0 Hh0 Hn Hf Horc Hh Hi Hmk. unfold hs_watershedSegmentation. cbv zeta.
  set (nm := Z.of_nat (length markers)) in *. set (o := OPts (of_list markers)).
  unfold bindM at 1. unfold alloc. rewrite Horc. cbn [is_null]. fold (with_block s o).
  assert (Hu : u32 nm = nm). { apply u32_id. destruct Hmk as (? & _). lia. }
  match goal with |- hs_returns _ _ ?N ?P0 => assert (HW : hs_returns (with_block s o)
    (withImageData v (fun p => watershed fuel w h p (Ptr (nxt s)) (u32 nm) bnd) (mul3 w h 4) (with_block s o)) N P0) end.
  { apply with_ok; [|nia|apply mul3_id; nia]. rewrite Hu.
    eapply fresh_weaken; [|eapply (T_Watershed.C33_colours fuel w h _ _ (Ptr (nxt s)) b (of_list markers) nm bnd)]; auto.
    - intros b' (H1 & H2 & _). split; [exact H1|exact H2].
    - apply wf_alloc; auto.
    - lia.
    - apply holds_block; auto.
    - exists (nxt s). split; [reflexivity|]. cbn. apply upd_same. }
  destruct HW as (r & s2 & Hr & Hla & HW). unfold bindM at 1. rewrite Hr. destruct r as [v'|].
  - destruct (scratch_vec s o s2 v' (w * h * 4) _ Hw Hla ltac:(nia) HW) as (s3 & Hfr & Hl3 & Hv3).
    unfold bindM. rewrite Hfr. exists (Some v'), s3. auto.
  - exfalso. destruct HW as (_ & k & _ & Hk). cbn in Hk. rewrite Horc in Hk. discriminate.
Qed.

(** The markers stay behind when the C function refuses. *)
Lemma hs_watershed_leak fuel w h markers bnd s v :
  wf s -> is_u32 w -> is_u32 h -> orc s (tick s) = true -> Z.of_nat (length markers) < 4294967296 ->
  (markers = [] \/ w = 0 \/ h = 0 \/
   (is_i32 w /\ is_i32 h /\ P_Watershed.small_markers (of_list markers) (Z.of_nat (length markers)) /\
    exists m, 0 <= m < Z.of_nat (length markers) /\ P_Watershed.bad_marker w h (of_list markers) m)) ->
  exists s', hs_watershedSegmentation fuel w h markers bnd v s = Ok (None, s') /\
    mem s (nxt s) = None /\ mem s' (nxt s) = Some (OPts (of_list markers)).
Proof.
  intros Hw Hw0 Hh0 Horc Hlen Hbad. unfold hs_watershedSegmentation. cbv zeta.
  set (nm := Z.of_nat (length markers)) in *. set (o := OPts (of_list markers)).
  unfold bindM at 1. unfold alloc. rewrite Horc. cbn [is_null]. fold (with_block s o).
  rewrite (u32_id nm) by lia.
  assert (HW : watershed fuel w h (v_ptr v) (Ptr (nxt s)) nm bnd (with_block s o) = Ok (Null, with_block s o)).
  { eapply (proj1 (T_Watershed.C32_rejects fuel w h (with_block s o) (v_ptr v) (Ptr (nxt s)) (of_list markers) nm bnd _ Hw0 Hh0 _ _)). }
  unfold withImageData, bindM. rewrite HW. cbn [is_null]. unfold ret. eexists. split; [reflexivity|].
  split; [apply Hw; lia|]. cbn. apply upd_same.
  Unshelve.
  - apply wf_alloc; auto.
  - exists (nxt s). split; [reflexivity|]. cbn. apply upd_same.
  - destruct Hbad as [->|Hbad]; [right; left; reflexivity|]. tauto.
Qed.

Lemma hs_matrix_ok iw ih ow oh m s v b :
  0 < iw -> 0 < ih -> iw * ih * 4 <= 2147483647 -> 0 < ow <= 32768 -> 0 < oh <= 32768 -> ow * oh * 4 <= 2147483647 ->
  wf s -> holds s (v_ptr v) b -> image (iw * ih * 4) b -> Spec_Persp.tame m ow oh -> ~ Spec_Persp.half_turn m ->
  hs_returns s (hs_applyMatrix3x3 iw ih ow oh m v s) (ow * oh * 4) (fun b' =>
    forall x y, 0 <= x < ow -> 0 <= y < oh -> exists X Y,
      (Rabs (X - Spec_Persp.map_x m x y) <= (1 + Rabs (Spec_Persp.map_x m x y)) / 10000)%R /\
      (Rabs (Y - Spec_Persp.map_y m x y) <= (1 + Rabs (Spec_Persp.map_y m x y)) / 10000)%R /\
      Spec_Persp.shows b iw ih X Y b' ow x y).
Proof.
  intros ? ? ? ? ? ? Hw Hh ? ? ?. unfold hs_applyMatrix3x3. set (o := OMat m). unfold bindM at 1.
  destruct (alloc_cases s o Hw) as [[-> Ho]|[-> Ho]]; cbn [is_null].
  { exists None. eexists. split; [reflexivity|]. split.
    - split; [apply wf_tick; auto|]. cbn. repeat split; auto; lia.
    - split; [intros j; reflexivity|]. exists (tick s). cbn. split; [lia|auto]. }
  fold (with_block s o).
  match goal with |- hs_returns _ _ ?N ?P0 => assert (HW : hs_returns (with_block s o)
    (withImageData v (fun p => M_Persp.apply_matrix_3x3 iw ih p ow oh (Ptr (nxt s))) (mul3_i32 ow oh 4) (with_block s o)) N P0) end.
  { apply with_ok; [|nia|rewrite mul3_i32_id by nia; apply u32_id; nia].
    apply T_Persp.C49_sample; auto.
    - apply wf_alloc; auto.
    - apply holds_block; auto.
    - exists (nxt s). split; [reflexivity|]. cbn. apply upd_same. }
  destruct HW as (r & s2 & Hr & Hla & HW). unfold bindM at 1. rewrite Hr. destruct r as [v'|].
  - destruct (scratch_vec s o s2 v' (ow * oh * 4) _ Hw Hla ltac:(nia) HW) as (s3 & Hfr & Hl3 & Hv3).
    unfold bindM. rewrite Hfr. exists (Some v'), s3. auto.
  - destruct HW as [Hsm (k & Hk & Hko)]. destruct Hla as (L1 & L2 & L3 & L4). cbn in *.
    assert (Hb : mem s2 (nxt s) = Some o). { rewrite Hsm. cbn. apply upd_same. }
    unfold bindM, free. rewrite Hb. exists None. eexists. split; [reflexivity|]. split; [|split].
    + split; [|cbn; repeat split; auto; lia]. intros j Hj. cbn in *. unfold upd. destruct (j =? nxt s); auto.
    + intros j. cbn. unfold upd. destruct (Z.eqb_spec j (nxt s)); [subst; symmetry; apply Hw; lia|].
      rewrite Hsm. cbn. apply upd_other; auto.
    + exists k. cbn. split; [lia|auto].
Qed.

(** ** The perspective transform *)
Lemma hs_persp_fallback id src dst s :
  (exists p, In p (M_Persp.corner_list src ++ M_Persp.corner_list dst) /\ (is_finite (fst p) = false \/ is_finite (snd p) = false)) ->
  forall m, Spec_Persp.holds_mat s id m -> hs_calculatePerspectiveTransform id src dst s = UB BadFree.
Proof.
  intros H m (i & -> & Hm). unfold hs_calculatePerspectiveTransform, bindM at 1.
  rewrite (T_Persp.C48_fallback (Ptr i) src dst s H). cbn [is_null].
  unfold M_Persp.get_mat, get_obj, bindM. rewrite Hm. unfold ret, c_free, ptr_eqb. now rewrite Z.eqb_refl.
Qed.

Lemma hs_persp_ok id src dst s m0 : wf s -> Spec_Persp.holds_mat s id m0 -> orc s (tick s) = true ->
  hs_calculatePerspectiveTransform id src dst s = UB BadFree \/
  exists m s', hs_calculatePerspectiveTransform id src dst s = Ok (Some m, s') /\ Spec_Persp.bounded m /\ later s s' /\ same_mem s s' /\
    exists q s1, M_Persp.calculate_perspective_transform id (Some src) (Some dst) s = Ok (Ptr q, s1) /\ mem s1 q = Some (OMat m).
Proof.
  intros Hw (i & -> & Hm) Horc. unfold hs_calculatePerspectiveTransform.
  destruct (T_Persp.C48_bounded_partial (Ptr i) (Some src) (Some dst) s Hw) as [Hr|[(q & s' & m & Hr & Hla & Hf & Hq & HB & Ho)|Hx]].
  - left. unfold Spec_Persp.falls_back in Hr. erewrite bindM_Ok by exact Hr. cbn [is_null].
    unfold M_Persp.get_mat, get_obj, bindM. rewrite Hm. unfold ret, c_free, ptr_eqb. now rewrite Z.eqb_refl.
  - right. exists m. erewrite bindM_Ok by exact Hr. cbn [is_null].
    assert (Hg : M_Persp.get_mat (Ptr q) s' = Ok (m, s')). { unfold M_Persp.get_mat, get_obj, bindM. now rewrite Hq. }
    assert (Hc : c_free (Ptr i) (Ptr q) s' = Ok (tt, mkst (upd (mem s') q None) (nxt s') (orc s') (tick s'))).
    { unfold c_free, ptr_eqb. destruct (Z.eqb_spec q i); [congruence|]. now apply free_ok with (o := OMat m). }
    erewrite bindM_Ok by exact Hg. erewrite bindM_Ok by exact Hc. eexists. split; [reflexivity|]. split; [exact HB|].
    destruct Hla as (L1 & L2 & L3 & L4). split; [|split].
    + split; [|cbn; repeat split; auto; lia]. intros j Hj. cbn in *. unfold upd. destruct (j =? q); auto.
    + intros j. cbn. unfold upd. destruct (Z.eqb_spec j q); [subst; auto|]. auto.
    + exists q, s'. auto.
  - congruence.
Qed.

(** ** Vectors that are longer than their memory *)
Lemma mul_gt a k : 0 < a -> 1 < k -> a < a * k. Proof. nia. Qed.

Lemma hs_over_sobel w h ch s v b : 0 < w < 2147483648 -> 0 < h < 2147483648 -> 1 < ch -> w * h * ch < 4294967296 ->
  wf s -> holds s (v_ptr v) b -> image (w * h * 4) b -> hs_unreadable s (hs_sobelEdgeDetection w h ch v s).
Proof.
  intros. assert (0 < w * h) by nia. assert (w * h * 8 <= SIZE_MAX) by (unfold SIZE_MAX; nia). eapply with_over with (n := w * h).
  - apply T_Sobel.C45_sobel_rgba with (b := b); auto.
  - intros ? [? _]; auto.
  - rewrite mul3_id by nia. split; [lia|]. apply mul_gt; lia.
Qed.

Lemma hs_over_foerstner w h sigma s v b : 0 < w -> 0 < h -> w * h < 1073741824 -> sigma_ok sigma ->
  half_window sigma <= w -> half_window sigma <= h ->
  wf s -> holds s (v_ptr v) b -> image (w * h) b -> hs_unreadable s (hs_foerstnerCorner w h sigma v s).
Proof.
  intros. assert (0 < w * h) by nia. eapply with_over with (n := w * h * 2).
  - apply T_Foerstner.C51_response_partial with (b := b); auto. unfold INT_MAX; lia.
  - intros ? [? _]; auto.
  - rewrite mul3_id by nia. lia.
Qed.

Lemma hs_over_morph w h r s v b : morph_ok w h r -> w * h <= 536870911 ->
  wf s -> holds s (v_ptr v) b -> image (w * h) b ->
  hs_unreadable s (hs_binaryDilationDisk w h r v s) /\ hs_unreadable s (hs_binaryErosionDisk w h r v s) /\
  hs_unreadable s (hs_binaryClosingDisk w h r v s) /\ hs_unreadable s (hs_binaryOpeningDisk w h r v s).
Proof.
  intros Hm. intros. pose proof Hm as (? & ? & _). assert (0 < w * h) by nia.
  assert (0 <= w * h < u32 (mul3_i32 w h 4)). { rewrite mul3_i32_id by nia. rewrite u32_id; lia. }
  split; [|split; [|split]].
  - eapply with_over with (n := w * h); [apply T_Morph.C20_dilation with (b := b); auto|intros ? [? _]; auto|auto].
  - eapply with_over with (n := w * h); [apply T_Morph.C20_erosion with (b := b); auto|intros ? [? _]; auto|auto].
  - eapply with_over with (n := w * h); [apply T_Morph.C21_closing with (b := b); auto|intros ? [? _]; auto|auto].
  - eapply with_over with (n := w * h); [apply T_Morph.C21_opening with (b := b); auto|intros ? [? _]; auto|auto].
Qed.

Lemma hs_over_binary w h fg bg s v b : 0 < w -> 0 < h -> w * h <= 536870911 ->
  wf s -> holds s (v_ptr v) b -> image (w * h * 4) b -> hs_unreadable s (hs_convertToBinary w h fg bg v s).
Proof.
  intros. assert (0 < w * h) by nia.
  destruct (P_Color3.hex_pure fg) as [[r g] bl] eqn:E.
  eapply with_over with (n := w * h).
  - eapply T_Color.C15_convert_to_binary with (b := b); auto; [nia|nia|]. rewrite P_Color3.parse_hex_pure, E. reflexivity.
  - intros ? [? _]; auto.
  - rewrite mul3_i32_id by nia. rewrite u32_id; lia.
Qed.

(** ** Functions that work on a copy *)
Lemma thaw_ok s v b : wf s -> holds s (v_ptr v) b -> 0 <= v_len v -> image (v_len v) b ->
  (exists s', thaw v s = Ok (None, s') /\ later s s' /\ same_mem s s' /\ alloc_failed s s') \/
  exists s' b1, thaw v s = Ok (Some (mkvec (Ptr (nxt s)) (v_len v)), s') /\ later s s' /\ mem s' (nxt s) = Some (OBytes b1) /\
    (forall j, j <> nxt s -> mem s' j = mem s j) /\ blen b1 = v_len v /\ forall i, 0 <= i < v_len v -> bget b1 i = bget b i.
Proof.
  intros Hw (i & Hp & Hm) Hn Hi. destruct v as [p n]. cbn [v_ptr v_len] in *. subst p. unfold thaw. cbn [v_ptr v_len].
  erewrite bindM_Ok by (apply get_bytes_ok; eauto).
  destruct (alloc_cases s (OBytes (bnew n)) Hw) as [[Ha Ho]|[Ha Ho]].
  - left. erewrite bindM_Ok by exact Ha. cbn [is_null]. eexists. split; [reflexivity|]. split; [|split].
    + split; [apply wf_tick; auto|]. cbn. repeat split; auto; lia.
    + intros j; reflexivity.
    + exists (tick s). cbn. split; [lia|auto].
  - right. erewrite bindM_Ok by exact Ha. cbn [is_null].
    erewrite bindM_Ok by (apply get_bytes_ok; cbn; apply upd_same).
    assert (HC : exists b1, bcopy (bnew n) 0 b 0 n = Ok b1 /\ blen b1 = n /\ forall j, 0 <= j < n -> bget b1 j = bget b j).
    { unfold bcopy. destruct (Z.eqb_spec n 0).
      - eexists. split; [reflexivity|]. split; [cbn; auto|]. intros; lia.
      - destruct Hi as [Hl Hi]. destruct (_ && _) eqn:E.
        + eexists. split; [reflexivity|]. split; [reflexivity|]. intros j Hj. cbn.
          destruct ((0 <=? j) && (j <? n)) eqn:E2; [f_equal; lia|lia].
        + cbn [blen bnew] in E. lia. }
    destruct HC as (b1 & HC & HL & HE). erewrite bindM_lift by exact HC.
    erewrite bindM_Ok by (eapply put_bytes_ok; cbn; apply upd_same).
    eexists _, b1. split; [reflexivity|]. cbn. split; [|split; [apply upd_same|split; [|split; auto]]].
    + split; [|cbn; repeat split; auto; lia]. intros j Hj. cbn in *. rewrite !upd_other by lia. apply Hw. lia.
    + intros j Hj. now rewrite !upd_other by auto.
Qed.

Lemma hs_threshold_ok n t v s b : wf s -> holds s (v_ptr v) b -> 0 <= n <= v_len v -> image (v_len v) b ->
  hs_returns s (hs_applyGlobalThreshold n t v s) (v_len v) (fun b' =>
    (forall i, 0 <= i < n -> bget b' i = match bget b i with Some g => Some (if t <? g then 255 else 0) | None => None end) /\
    forall i, n <= i < v_len v -> bget b' i = bget b i).
Proof.
  intros Hw Hh Hn Hi. unfold hs_applyGlobalThreshold.
  destruct (thaw_ok s v b Hw Hh ltac:(lia) Hi) as [(s' & Ht & Hla & H)|(s' & b1 & Ht & Hla & Hm & Ho & HL & HE)]; erewrite bindM_Ok by exact Ht.
  { exists None, s'. split; [reflexivity|]. auto. }
  cbn [v_ptr]. erewrite bindM_Ok by (apply get_bytes_ok; eauto).
  assert (Hi1 : image n b1). { split; [lia|]. intros j Hj. rewrite HE by lia. apply Hi. lia. }
  destruct (P_Color3.global_threshold_ok n t b1 Hi1 ltac:(lia)) as (b2 & Hg & HL2 & HA & HB).
  erewrite bindM_lift by exact Hg. erewrite bindM_Ok by (eapply put_bytes_ok; eauto).
  eexists (Some _), _. split; [reflexivity|]. destruct Hla as (L1 & L2 & L3 & L4).
  assert (Hlt : nxt s < nxt s'). { eapply holds_lt; eauto. }
  assert (HV : forall i, 0 <= i < n -> bget b2 i = match bget b i with Some g => Some (if t <? g then 255 else 0) | None => None end).
  { intros i Hii. rewrite HA by auto. destruct Hi as [_ Hi]. destruct (Hi i) as (g & Hg' & _); [lia|]. unfold P_Color.val. rewrite HE, Hg' by lia. reflexivity. }
  assert (HR : forall i, n <= i < v_len v -> bget b2 i = bget b i). { intros i Hii. rewrite HB by lia. apply HE. lia. }
  split.
  { split; [|cbn; repeat split; auto; lia]. intros j Hj. cbn in *. rewrite upd_other by lia. apply L1. lia. }
  eapply new_vec_intro with (b := b2); auto.
  - split; [|cbn; repeat split; auto; lia]. intros j Hj. cbn in *. rewrite upd_other by lia. apply L1. lia.
  - lia.
  - apply Hw. lia.
  - cbn. apply upd_same.
  - split; [lia|]. split; [lia|]. intros i Hii. destruct (Z.lt_ge_cases i n).
    + rewrite HV by lia. destruct Hi as [_ Hi]. destruct (Hi i) as (g & -> & _); [lia|]. eexists. split; [reflexivity|]. unfold byte. destruct (_ <? _); lia.
    + rewrite HR by lia. apply Hi. lia.
  - intros j Hj. cbn. rewrite upd_other by auto. auto.
Qed.

Lemma hs_draw_ok f shape w h ch hex r cx cy v s b cr cg cb : draws f shape -> draw_ok w h ch r cx cy ->
  wf s -> holds s (v_ptr v) b -> v_len v = w * h * ch -> image (w * h * ch) b -> parse_hex_color hex = Ok (cr, cg, cb) ->
  exists col, drawn_colour ch cr cg cb col /\
  hs_returns s (hs_draw f w h ch hex r cx cy v s) (w * h * ch) (fun b' =>
    forall x y c, inside w h x y -> 0 <= c < ch ->
      (shape (int_part r) (x - int_part cx) (y - int_part cy) -> pix b' w ch x y c = Some (col c)) /\
      (~ shape (int_part r) (x - int_part cx) (y - int_part cy) -> pix b' w ch x y c = pix b w ch x y c)).
Proof.
  intros HD Hdr Hw Hh Hl Hi Hhex. unfold hs_draw. pose proof Hdr as (Hw0 & Hh0 & Hch & _).
  assert (Bc : byte cr /\ byte cg /\ byte cb). { apply (P_Color3.parse_hex_bytes hex). rewrite P_Color3.parse_hex_pure in Hhex. now injection Hhex. }
  destruct (thaw_ok s v b Hw Hh ltac:(nia) ltac:(rewrite Hl; exact Hi)) as [(s' & Ht & Hla & H)|(s' & b1 & Ht & Hla & Hm & Ho & HL & HE)].
  { destruct (HD w h ch hex r cx cy s (v_ptr v) b cr cg cb) as (col & Hc & _); auto; [apply Hi|]. exists col. split; [exact Hc|].
    erewrite bindM_Ok by exact Ht. exists None, s'. split; [reflexivity|]. auto. }
  destruct (HD w h ch hex r cx cy s' (Ptr (nxt s)) b1 cr cg cb) as (col & Hc & (d & s2 & b2 & Hd & Hrun & Hm2 & (HL2 & HP & HP2) & Ho2 & Hn2 & Hor2 & Ht2)); auto.
  { exists (nxt s). auto. }
  { lia. }
  injection Hd as <-. exists col. split; [exact Hc|].
  erewrite bindM_Ok by exact Ht. cbn [v_ptr]. erewrite bindM_Ok by exact Hrun.
  eexists (Some _), _. split; [reflexivity|]. destruct Hla as (L1 & L2 & L3 & L4).
  assert (Hlt : nxt s < nxt s'). { eapply holds_lt; eauto. }
  assert (Hla2 : later s s2).
  { split; [|rewrite Hor2, Ht2, Hn2; repeat split; auto; lia]. intros j Hj. rewrite Ho2 by lia. apply L1. lia. }
  split; [exact Hla2|]. rewrite Hl.
  assert (Hpix : forall x y c, inside w h x y -> 0 <= c < ch -> pix b1 w ch x y c = pix b w ch x y c).
  { intros x y c [Hx Hy] Hcc. unfold pix. apply HE. rewrite Hl. nia. }
  apply new_vec_intro with (b := b2); auto.
  - nia.
  - apply Hw. lia.
  - split; [lia|]. split; [lia|]. intros i Hii.
    assert (Hq : i = ((i / ch / w) * w + (i / ch) mod w) * ch + i mod ch).
    { pose proof (Z.div_mod i ch ltac:(lia)). pose proof (Z.div_mod (i / ch) w ltac:(lia)). nia. }
    pose proof (Z.mod_pos_bound i ch ltac:(lia)). pose proof (Z.mod_pos_bound (i / ch) w ltac:(lia)).
    assert (0 <= i / ch < w * h). { split; [apply Z.div_pos; lia|]. apply Z.div_lt_upper_bound; nia. }
    assert (0 <= i / ch / w < h). { split; [apply Z.div_pos; lia|]. apply Z.div_lt_upper_bound; nia. }
    destruct (HP ((i / ch) mod w) (i / ch / w) (i mod ch)) as [HS1 HS2]; [split; lia|lia|].
    destruct (Classical_Prop.classic (shape (int_part r) ((i / ch) mod w - int_part cx) (i / ch / w - int_part cy))) as [HS|HS].
    + specialize (HS1 HS). unfold pix in HS1. rewrite <- Hq in HS1. rewrite HS1. eexists. split; [reflexivity|].
      unfold drawn_colour in Hc. destruct (Z.eqb_spec ch 1).
      * subst ch. rewrite Z.mod_1_r. apply Hc.
      * destruct Hc as (? & ? & ? & ?). assert (E : i mod ch = 0 \/ i mod ch = 1 \/ i mod ch = 2 \/ i mod ch = 3) by lia.
        destruct E as [->|[->|[->| ->]]]; unfold byte in *; lia.
    + specialize (HS2 HS). rewrite Hpix in HS2 by (try split; lia). unfold pix in HS2. rewrite <- Hq in HS2. rewrite HS2. apply Hi. lia.
  - intros x y c Hx Hcc. destruct (HP x y c Hx Hcc) as [HS1 HS2]. split; [exact HS1|]. intros HS. rewrite (HS2 HS). apply Hpix; auto.
  - intros j Hj. rewrite Ho2 by auto. apply Ho. auto.
Qed.

Lemma hs_circle_ok : exists ring, (forall r, 0 <= r -> ring_like r (ring r)) /\
  forall w h ch hex r cx cy v s b cr cg cb, draw_ok w h ch r cx cy ->
  wf s -> holds s (v_ptr v) b -> v_len v = w * h * ch -> image (w * h * ch) b -> parse_hex_color hex = Ok (cr, cg, cb) ->
  exists col, drawn_colour ch cr cg cb col /\
  hs_returns s (hs_drawCircle w h ch hex r cx cy v s) (w * h * ch) (fun b' =>
    forall x y c, inside w h x y -> 0 <= c < ch ->
      (ring (int_part r) (x - int_part cx) (y - int_part cy) -> pix b' w ch x y c = Some (col c)) /\
      (~ ring (int_part r) (x - int_part cx) (y - int_part cy) -> pix b' w ch x y c = pix b w ch x y c)).
Proof.
  destruct T_Draw.C23_circle as (ring & HD & HR). exists ring. split; [exact HR|]. intros. eapply hs_draw_ok; eauto.
Qed.

Lemma hs_disk_ok : exists disk, (forall r, 0 <= r -> disk_like r (disk r)) /\
  forall w h ch hex r cx cy v s b cr cg cb, draw_ok w h ch r cx cy ->
  wf s -> holds s (v_ptr v) b -> v_len v = w * h * ch -> image (w * h * ch) b -> parse_hex_color hex = Ok (cr, cg, cb) ->
  exists col, drawn_colour ch cr cg cb col /\
  hs_returns s (hs_drawDisk w h ch hex r cx cy v s) (w * h * ch) (fun b' =>
    forall x y c, inside w h x y -> 0 <= c < ch ->
      (disk (int_part r) (x - int_part cx) (y - int_part cy) -> pix b' w ch x y c = Some (col c)) /\
      (~ disk (int_part r) (x - int_part cx) (y - int_part cy) -> pix b' w ch x y c = pix b w ch x y c)).
Proof.
  destruct T_Draw.C23_disk as (disk & HD & HR). exists disk. split; [exact HR|]. intros. eapply hs_draw_ok; eauto.
Qed.

Lemma short_vectors :
  (forall F f, In (F, f) (turning ++ toning) -> F 2 1 (mkvec (Ptr 0) 4) (ExUtil.st1 [1; 2; 3; 4]) = UB OutOfBounds) /\
  hs_applyGlobalThreshold 5 100 (mkvec (Ptr 0) 4) (ExUtil.st1 [1; 2; 3; 4]) = UB OutOfBounds /\
  hs_drawDisk 2 1 4 (Spec_Parse.txt "ff0000"%string) d1 d1 d0 (mkvec (Ptr 0) 4) (ExUtil.st1 [1; 2; 3; 4]) = UB OutOfBounds.
Proof.
  split; [|split; vm_compute; reflexivity]. intros F f HI. cbn in HI.
  repeat (destruct HI as [E|HI]; [injection E as <- <-; vm_compute; reflexivity|]). contradiction.
Qed.

Lemma point_transform : forall s m, Spec_Persp.holds_mat s (Ptr 9) m -> wf s -> orc s (tick s) = true ->
  hs_calculatePerspectiveTransform (Ptr 9) (P_PerspEx.c4 1 1 1 1 1 1 1 1) (P_PerspEx.c4 0 0 4 0 4 2 0 2) s = UB BadFree.
Proof.
  intros s m (i & E & Hm) Hw Ho. injection E as <-. unfold hs_calculatePerspectiveTransform.
  assert (H : M_Persp.calculate_perspective_transform (Ptr 9) (Some (P_PerspEx.c4 1 1 1 1 1 1 1 1)) (Some (P_PerspEx.c4 0 0 4 0 4 2 0 2)) s = Ok (Ptr 9, s)).
  { vm_compute. reflexivity. }
  erewrite bindM_Ok by exact H. unfold M_Persp.get_mat, get_obj, bindM. cbn [is_null]. rewrite Hm. reflexivity.
Qed.
