(** * Proofs about [M_Trim.v] *)
From Verif Require Import Base BaseLemmas F Heap HeapLemmas Spec Spec_Trim M_Geom P_Geom P_Crop M_Trim P_Color.
From Verif Require Import FLemmas.
From Coq Require Import Reals Lra.
From Flocq Require Import Core.Raux.
Open Scope Z_scope.

(** Search loops that look for a counterexample. *)
Lemma for_brk_all lo hi (bad : Z -> bool) (f : Z -> res (unit + unit)) :
  (forall i, lo <= i < hi -> f i = Ok (if bad i then inr tt else inl tt)) ->
  exists r, for_brk lo hi (fun i _ => f i) tt = Ok r /\
    match r with
    | inl _ => forall i, lo <= i < hi -> bad i = false
    | inr _ => exists i, lo <= i < hi /\ bad i = true
    end.
Proof.
  intros H. destruct (Z.lt_ge_cases hi lo) as [Hh|Hh].
  { rewrite for_brk_empty by lia. eexists; split; [reflexivity|]. simpl; intros; lia. }
  destruct (for_brk_inv (S := unit) (R := unit) (fun i _ => forall j, lo <= j < i -> bad j = false)
     (fun _ => exists i, lo <= i < hi /\ bad i = true) lo hi (fun i _ => f i) tt)
    as [[s [E P]]|[r [E P]]]; auto.
  - intros; lia.
  - intros i [] Hi P. rewrite H by auto. destruct (bad i) eqn:B.
    + right. exists tt; split; auto. exists i; auto.
    + left. exists tt; split; auto. intros j Hj. destruct (Z.eq_dec j i) as [->|]; auto. apply P; lia.
  - eexists; split; [exact E|exact P].
  - eexists; split; [exact E|exact P].
Qed.

Section Box.
Variables (b : buf Z) (w h ch tol : Z).
Hypothesis Hw : 0 < w <= 2147483647.
Hypothesis Hh : 0 < h <= 2147483647.
Hypothesis Hch : 0 < ch.
Hypothesis Hsz : w * h * ch <= 4294967296.
Hypothesis Hi : image (w * h * ch) b.
Variable mt : Z -> Z -> res bool.

Definition off (x y : Z) : Z := (y * w + x) * ch.

Definition decides (q : bool) (P : Prop) : Prop := q = true <-> P.

Hypothesis Hmt : forall x y x' y', 0 <= x < w -> 0 <= y < h -> 0 <= x' < w -> 0 <= y' < h ->
  exists q, mt (off x y) (off x' y') = Ok q /\ decides q (px_close tol b w ch x y x' y').

Lemma off_bound x y : 0 <= x < w -> 0 <= y < h -> 0 <= off x y /\ off x y + ch <= w * h * ch.
Proof.
  intros Hx Hy. pose proof (rm_bound w h x y Hx Hy). unfold off. split; [apply Z.mul_nonneg_nonneg; lia|].
  replace ((y * w + x) * ch + ch) with ((y * w + x + 1) * ch) by ring.
  apply Z.mul_le_mono_nonneg_r; lia.
Qed.

Lemma tidx_off x y : 0 <= x < w -> 0 <= y < h -> tidx w ch y x = off x y.
Proof.
  intros Hx Hy. pose proof (off_bound x y Hx Hy). pose proof (rm_bound w h x y Hx Hy). unfold tidx, off in *.
  assert (w * h <= w * h * ch) by nia. assert (0 <= y * w) by nia.
  rewrite (u32_small (y * w)) by lia. rewrite (u32_small (y * w + x)) by lia. apply u32_small; lia.
Qed.

Lemma line_ok idx ref lo hi (xs ys : Z -> Z) x0 y0 :
  (forall i, lo <= i < hi -> 0 <= xs i < w /\ 0 <= ys i < h /\ idx i = off (xs i) (ys i)) ->
  0 <= x0 < w -> 0 <= y0 < h -> ref = off x0 y0 ->
  exists q, line_matches mt idx ref lo hi = Ok q /\
    decides q (forall i, lo <= i < hi -> px_close tol b w ch (xs i) (ys i) x0 y0).
Proof.
  intros Hidx Hx0 Hy0 ->. unfold line_matches.
  destruct (for_brk_all lo hi (fun i => match mt (idx i) (off x0 y0) with Ok true => false | _ => true end)
    (fun i => m <- mt (idx i) (off x0 y0);; (if negb m then Ok (inr tt) else Ok (inl tt)))) as [r [E P]].
  { intros i Hi'. destruct (Hidx i Hi') as (A & B & ->).
    destruct (Hmt _ _ _ _ A B Hx0 Hy0) as [q [-> _]]. destruct q; reflexivity. }
  rewrite E. rewrite bind_Ok.
  assert (Q : forall i, lo <= i < hi ->
     match mt (idx i) (off x0 y0) with Ok true => false | _ => true end = false <-> px_close tol b w ch (xs i) (ys i) x0 y0).
  { intros i Hi'. destruct (Hidx i Hi') as (A & B & ->).
    destruct (Hmt _ _ _ _ A B Hx0 Hy0) as [q [-> D]]. unfold decides in D. destruct q; intuition congruence. }
  destruct r as [[]|[]]; eexists; (split; [reflexivity|]); unfold decides; split; try discriminate; try reflexivity.
  - intros _ i Hi'. apply Q; auto.
  - intros H. destruct P as (i & Hi' & B). pose proof (proj2 (Q i Hi') (H i Hi')). congruence.
Qed.

Lemma col_ok x : 0 <= x < w ->
  exists q, line_matches mt (fun y => tidx w ch y x) (tidx w ch 0 x) 0 h = Ok q /\ decides q (col_uniform tol b w h ch x).
Proof.
  intros Hx. apply (line_ok _ _ 0 h (fun _ => x) (fun y => y) x 0); auto; try lia.
  - intros y Hy. rewrite tidx_off by auto. auto.
  - apply tidx_off; lia.
Qed.
Lemma row_ok l r y : 0 <= l < r -> r <= w -> 0 <= y < h ->
  exists q, line_matches mt (fun x => tidx w ch y x) (tidx w ch y l) l r = Ok q /\ decides q (row_uniform tol b w ch l r y).
Proof.
  intros Hl Hr Hy. apply (line_ok _ _ l r (fun x => x) (fun _ => y) l y); auto; try lia.
  - intros x Hx. rewrite tidx_off by lia. repeat split; auto; lia.
  - apply tidx_off; lia.
Qed.

Lemma trim_left_ok : exists l, trim_left mt w ch 0 h w = Ok l /\ 0 <= l < w /\
  (forall x, 0 <= x < l -> col_uniform tol b w h ch x) /\ (l = w - 1 \/ ~ col_uniform tol b w h ch l).
Proof.
  unfold trim_left.
  destruct (while_inv (fun l => 0 <= l < w /\ forall x, 0 <= x < l -> col_uniform tol b w h ch x)
    (fun l => 0 <= l < w /\ (forall x, 0 <= x < l -> col_uniform tol b w h ch x) /\
              (l = w - 1 \/ ~ col_uniform tol b w h ch l))
    (fun l => Z.to_nat (w - l))
    (fun left => if left <? w then
      can <- line_matches mt (fun y => tidx w ch y left) (tidx w ch 0 left) 0 h ;;
      if (can : bool) && (1 <? u32 (w - left)) then Ok (inl (u32 (left + 1))) else Ok (inr left)
    else Ok (inr left)) (Z.to_nat w + 1) 0) as [l [E H]]; eauto.
  - lia.
  - split; [lia|]. intros; lia.
  - intros l [Hl Hc]. replace (l <? w) with true by lia.
    destruct (col_ok l Hl) as [q [-> D]]. rewrite bind_Ok. rewrite (u32_small (w - l)) by lia.
    destruct q; cbn [andb]; [destruct (Z.ltb_spec 1 (w - l))|].
    + left. rewrite u32_small by lia. eexists; split; [reflexivity|]. split; [|lia].
      split; [lia|]. intros x Hx. destruct (Z.eq_dec x l) as [->|]; [apply D; auto|apply Hc; lia].
    + right. eexists; split; [reflexivity|]. split; [lia|]. split; auto. left; lia.
    + right. eexists; split; [reflexivity|]. split; [lia|]. split; auto. right. unfold decides in D. intros F.
      apply D in F. discriminate.
Qed.

Lemma trim_right_ok l : 0 <= l < w -> exists r, trim_right mt w ch 0 h l = Ok r /\ l < r <= w /\
  (forall x, r <= x < w -> col_uniform tol b w h ch x) /\ (r = l + 1 \/ ~ col_uniform tol b w h ch (r - 1)).
Proof.
  intros Hl. unfold trim_right.
  destruct (while_inv (fun r => l < r <= w /\ forall x, r <= x < w -> col_uniform tol b w h ch x)
    (fun r => l < r <= w /\ (forall x, r <= x < w -> col_uniform tol b w h ch x) /\
              (r = l + 1 \/ ~ col_uniform tol b w h ch (r - 1)))
    (fun r => Z.to_nat (r - l))
    (fun right => if l <? right then
      can <- line_matches mt (fun y => tidx w ch y (u32 (right - 1)))
               (tidx w ch 0 (u32 (right - 1))) 0 h ;;
      if (can : bool) && (1 <? u32 (right - l)) then Ok (inl (u32 (right - 1))) else Ok (inr right)
    else Ok (inr right)) (Z.to_nat w + 1) w) as [r [E H]]; eauto.
  - lia.
  - split; [lia|]. intros; lia.
  - intros r [Hr Hc]. replace (l <? r) with true by lia. rewrite (u32_small (r - 1)) by lia.
    destruct (col_ok (r - 1)) as [q [-> D]]; [lia|]. rewrite bind_Ok. rewrite (u32_small (r - l)) by lia.
    destruct q; cbn [andb]; [destruct (Z.ltb_spec 1 (r - l))|].
    + left. eexists; split; [reflexivity|]. split; [|lia].
      split; [lia|]. intros x Hx. destruct (Z.eq_dec x (r - 1)) as [->|]; [apply D; auto|apply Hc; lia].
    + right. eexists; split; [reflexivity|]. split; [lia|]. split; auto. left; lia.
    + right. eexists; split; [reflexivity|]. split; [lia|]. split; auto. right. unfold decides in D. intros F.
      apply D in F. discriminate.
Qed.

Lemma trim_top_ok l r : 0 <= l < r -> r <= w -> exists t, trim_top mt w h ch l r h = Ok t /\ 0 <= t < h /\
  (forall y, 0 <= y < t -> row_uniform tol b w ch l r y) /\ (t = h - 1 \/ ~ row_uniform tol b w ch l r t).
Proof.
  intros Hl Hr. unfold trim_top.
  destruct (while_inv (fun t => 0 <= t < h /\ forall y, 0 <= y < t -> row_uniform tol b w ch l r y)
    (fun t => 0 <= t < h /\ (forall y, 0 <= y < t -> row_uniform tol b w ch l r y) /\
              (t = h - 1 \/ ~ row_uniform tol b w ch l r t))
    (fun t => Z.to_nat (h - t))
    (fun top => if (top <? h) && (1 <? u32 (h - top)) then
      can <- line_matches mt (fun x => tidx w ch top x) (tidx w ch top l) l r ;;
      if (can : bool) then Ok (inl (u32 (top + 1))) else Ok (inr top)
    else Ok (inr top)) (Z.to_nat h + 1) 0) as [t [E H]]; eauto.
  - lia.
  - split; [lia|]. intros; lia.
  - intros t [Ht Hc]. replace (t <? h) with true by lia. rewrite (u32_small (h - t)) by lia. cbn [andb].
    destruct (Z.ltb_spec 1 (h - t)).
    + destruct (row_ok l r t) as [q [-> D]]; auto. rewrite bind_Ok. destruct q.
      * left. rewrite u32_small by lia. eexists; split; [reflexivity|]. split; [|lia].
        split; [lia|]. intros x Hx. destruct (Z.eq_dec x t) as [->|]; [apply D; auto|apply Hc; lia].
      * right. eexists; split; [reflexivity|]. split; [lia|]. split; auto. right. unfold decides in D. intros F.
        apply D in F. discriminate.
    + right. eexists; split; [reflexivity|]. split; [lia|]. split; auto. left; lia.
Qed.

Lemma trim_bottom_ok l r t : 0 <= l < r -> r <= w -> 0 <= t < h ->
  exists bt, trim_bottom mt w h ch l r t = Ok bt /\ t < bt <= h /\
  (forall y, bt <= y < h -> row_uniform tol b w ch l r y) /\ (bt = t + 1 \/ ~ row_uniform tol b w ch l r (bt - 1)).
Proof.
  intros Hl Hr Ht. unfold trim_bottom.
  destruct (while_inv (fun bt => t < bt <= h /\ forall y, bt <= y < h -> row_uniform tol b w ch l r y)
    (fun bt => t < bt <= h /\ (forall y, bt <= y < h -> row_uniform tol b w ch l r y) /\
              (bt = t + 1 \/ ~ row_uniform tol b w ch l r (bt - 1)))
    (fun bt => Z.to_nat (bt - t))
    (fun bottom => if (t <? bottom) && (1 <? u32 (bottom - t)) then
      can <- line_matches mt (fun x => tidx w ch (u32 (bottom - 1)) x) (tidx w ch (u32 (bottom - 1)) l) l r ;;
      if (can : bool) then Ok (inl (u32 (bottom - 1))) else Ok (inr bottom)
    else Ok (inr bottom)) (Z.to_nat h + 1) h) as [bt [E H]]; eauto.
  - lia.
  - split; [lia|]. intros; lia.
  - intros bt [Hb Hc]. replace (t <? bt) with true by lia. rewrite (u32_small (bt - t)) by lia. cbn [andb].
    rewrite (u32_small (bt - 1)) by lia.
    destruct (Z.ltb_spec 1 (bt - t)).
    + destruct (row_ok l r (bt - 1)) as [q [-> D]]; auto; [lia|]. rewrite bind_Ok. destruct q.
      * left. eexists; split; [reflexivity|]. split; [|lia].
        split; [lia|]. intros x Hx. destruct (Z.eq_dec x (bt - 1)) as [->|]; [apply D; auto|apply Hc; lia].
      * right. eexists; split; [reflexivity|]. split; [lia|]. split; auto. right. unfold decides in D. intros F.
        apply D in F. discriminate.
    + right. eexists; split; [reflexivity|]. split; [lia|]. split; auto. left; lia.
Qed.

Lemma trim_bounds_ok : exists l r t bt, trim_bounds mt w h ch = Ok (l, r, t, bt) /\ trim_box tol b w h ch l r t bt.
Proof.
  unfold trim_bounds.
  destruct trim_left_ok as (l & -> & L1 & L2 & L3). rewrite bind_Ok.
  destruct (trim_right_ok l L1) as (r & -> & R1 & R2 & R3). rewrite bind_Ok.
  destruct (trim_top_ok l r) as (t & -> & T1 & T2 & T3); try lia. rewrite bind_Ok.
  destruct (trim_bottom_ok l r t) as (bt & -> & B1 & B2 & B3); try lia. rewrite bind_Ok.
  exists l, r, t, bt. split; [reflexivity|]. unfold trim_box. repeat split; auto; lia.
Qed.
End Box.

Lemma trim_core_ok mt w h ch tol s p b :
  wf s -> 0 < w <= 2147483647 -> 0 < h <= 2147483647 -> 0 < ch -> w * h * ch <= 4294967296 ->
  holds s p b -> image (w * h * ch) b ->
  (forall x y x' y', 0 <= x < w -> 0 <= y < h -> 0 <= x' < w -> 0 <= y' < h ->
     exists q, mt b (off w ch x y) (off w ch x' y') = Ok q /\ decides q (px_close tol b w ch x y x' y')) ->
  returns_sized s (trim_core mt w h ch p s) (fun w' h' b' =>
    exists l r t bt, trim_box tol b w h ch l r t bt /\ is_box b w ch l r t bt w' h' b').
Proof.
  intros Hwf Hw Hh Hch Hsz Hp Hi Hmt.
  destruct (trim_bounds_ok b w h ch tol Hw Hh Hch Hsz (mt b) Hmt) as (l & r & t & bt & E & B).
  unfold trim_core. rewrite (u32_small w) by lia. rewrite (u32_small h) by lia.
  assert (0 < w * h) by nia. assert (w * h <= w * h * ch) by nia.
  rewrite (u64_small (w * h)) by lia.
  assert (SIZE_MAX / h <? w = false) as ->.
  { unfold SIZE_MAX; apply Z.ltb_ge. apply Z.div_le_lower_bound; nia. }
  assert (SIZE_MAX / ch <? w * h = false) as ->.
  { unfold SIZE_MAX; apply Z.ltb_ge. apply Z.div_le_lower_bound; lia. }
  cbn [orb]. cbv iota zeta. pose proof Hp as [d [-> Hd]].
  hget. hlift E. cbv zeta. pose proof B as (B1 & B2 & B3 & B4 & _).
  rewrite (u32_small (r - l)) by lia. rewrite (u32_small (bt - t)) by lia.
  destruct ((l =? 0) && (t =? 0) && (r =? w) && (bt =? h)) eqn:C.
  - assert (l = 0 /\ t = 0 /\ r = w /\ bt = h) as (-> & -> & -> & ->) by lia.
    rewrite (u64_small (w * h * ch)) by lia.
    unfold malloc_bytes. halloc Ea Oa; [exact Hwf| |].
    { eexists Null, w, h, _. split; [reflexivity|]. split; [later_tac Hwf|]. split; [mem_same Hwf|].
      exists (tick s); split; auto; cbn; lia. }
    hget. destruct Hi as [Hl Hv].
    destruct (bcopy_ok (bnew (w * h * ch)) 0 b 0 (w * h * ch)) as (b' & E2 & L2 & G2); try lia.
    { cbn [blen bnew]; lia. }
    hlift E2. hput. eexists (Ptr (nxt s)), w, h, _. split; [reflexivity|]. split; [later_tac Hwf|].
    split; [apply Hwf; lia|]. split; [|mem_same Hwf].
    eexists; split; [mem_lookup|]. exists 0, w, 0, h. split; [exact B|]. unfold is_box.
    replace (w - 0) with w by lia. replace (h - 0) with h by lia. do 2 (split; [reflexivity|]).
    assert (G : forall j, 0 <= j < w * h * ch -> bget b' j = bget b j).
    { intros j Hj. rewrite G2. replace ((0 <=? j) && (j <? 0 + w * h * ch)) with true by lia. f_equal; lia. }
    split.
    + split; [exact L2|]. split; [rewrite L2; cbn [blen bnew]; lia|]. intros j Hj. rewrite G by auto. auto.
    + intros x y c Hx Hy Hc. unfold pix. rewrite !Z.add_0_l. apply G.
      pose proof (off_bound w h ch Hch x y Hx Hy). unfold off in *. lia.
  - assert (CR : returns_fresh s (crop w h ch (Ptr d) l t (r - l) (bt - t) s) (fun b' =>
       exact_image ((r - l) * (bt - t) * ch) b' /\
       forall px py c, 0 <= px < r - l -> 0 <= py < bt - t -> 0 <= c < ch ->
         pix b' (r - l) ch px py c = pix b w ch (l + px) (t + py) c)).
    { apply (crop_ok w h ch (Ptr d) l t (r - l) (bt - t) s b); auto; unfold is_u32, SIZE_MAX; try lia. nia. }
    destruct CR as (q & s1 & E1 & L1 & M1). rewrite (bindM_Ok _ _ _ _ _ E1).
    exists q, (s32 (r - l)), (s32 (bt - t)), s1. split; [reflexivity|]. split; [exact L1|].
    destruct q as [|q]; [exact M1|]. destruct M1 as (M1 & (b' & Hb & X & G) & M2). split; [exact M1|].
    split; [|exact M2]. exists b'. split; [exact Hb|]. exists l, r, t, bt. split; [exact B|].
    rewrite !s32_small by (unfold INT_MIN, INT_MAX; lia). unfold is_box. do 2 (split; [reflexivity|]). split; auto.
Qed.

Lemma image_byte n b j : image n b -> 0 <= j < n -> byte (val b j).
Proof. intros H Hj. apply (image_val n b j H Hj). Qed.

Lemma pixels_match_ok b w h ch x y x' y' :
  0 < ch -> image (w * h * ch) b ->
  0 <= x < w -> 0 <= y < h -> 0 <= x' < w -> 0 <= y' < h ->
  exists q, pixels_match b ch (off w ch x y) (off w ch x' y') = Ok q /\ decides q (px_close 0 b w ch x y x' y').
Proof.
  intros Hch Hi Hx Hy Hx' Hy'. unfold pixels_match.
  pose proof (off_bound w h ch Hch x y Hx Hy) as B. pose proof (off_bound w h ch Hch x' y' Hx' Hy') as B'.
  destruct (for_brk_all 0 ch (fun c => negb (val b (off w ch x y + c) =? val b (off w ch x' y' + c)))
    (fun c => a <- load b (off w ch x y + c);; b0 <- load b (off w ch x' y' + c);;
       if negb (a =? b0) then Ok (inr tt) else Ok (inl tt))) as [r [E P]].
  { intros c Hc. rewrite (image_load (w * h * ch)) by (auto; lia). rewrite bind_Ok.
    rewrite (image_load (w * h * ch)) by (auto; lia). rewrite bind_Ok.
    destruct (negb _); reflexivity. }
  rewrite E, bind_Ok. unfold decides, px_close, pixv, pix. unfold val, off in P.
  destruct r as [[]|[]]; eexists; (split; [reflexivity|]); split; try discriminate; try reflexivity.
  - intros _ c Hc. specialize (P c Hc). cbv beta in P. lia.
  - intros H. destruct P as (c & Hc & P). specialize (H c Hc). cbv beta in P. lia.
Qed.

Lemma pixels_match_threshold_ok b w h ch tol x y x' y' :
  0 < ch -> image (w * h * ch) b ->
  0 <= x < w -> 0 <= y < h -> 0 <= x' < w -> 0 <= y' < h ->
  exists q, pixels_match_threshold b ch tol (off w ch x y) (off w ch x' y') = Ok q /\ decides q (px_close tol b w ch x y x' y').
Proof.
  intros Hch Hi Hx Hy Hx' Hy'. unfold pixels_match_threshold.
  pose proof (off_bound w h ch Hch x y Hx Hy) as B. pose proof (off_bound w h ch Hch x' y' Hx' Hy') as B'.
  destruct (for_brk_all 0 ch (fun c => tol <? Z.abs (val b (off w ch x y + c) - val b (off w ch x' y' + c)))
    (fun c => a <- load b (off w ch x y + c);; b0 <- load b (off w ch x' y' + c);;
       let diff := a - b0 in let diff := if diff <? 0 then - diff else diff in
       if tol <? u8 diff then Ok (inr tt) else Ok (inl tt))) as [r [E P]].
  { intros c Hc. rewrite (image_load (w * h * ch)) by (auto; lia). rewrite bind_Ok.
    rewrite (image_load (w * h * ch)) by (auto; lia). rewrite bind_Ok. cbv zeta.
    assert (B1 := image_byte _ _ (off w ch x y + c) Hi ltac:(lia)).
    assert (B2 := image_byte _ _ (off w ch x' y' + c) Hi ltac:(lia)). unfold byte in *.
    revert B1 B2; generalize (val b (off w ch x y + c)) (val b (off w ch x' y' + c)); intros a a' B1 B2.
    replace (if a - a' <? 0 then - (a - a') else a - a') with (Z.abs (a - a'))
      by (destruct (Z.ltb_spec (a - a') 0); lia).
    rewrite u8_small by lia. destruct (tol <? Z.abs (a - a')); reflexivity. }
  cbv zeta in E |- *. rewrite E, bind_Ok. unfold decides, px_close, pixv, pix. unfold val, off in P.
  destruct r as [[]|[]]; eexists; (split; [reflexivity|]); split; try discriminate; try reflexivity.
  - intros _ c Hc. specialize (P c Hc). cbv beta in P. lia.
  - intros H. destruct P as (c & Hc & P). specialize (H c Hc). cbv beta in P. lia.
Qed.

Lemma trim_ok : forall w h ch s p b,
  wf s -> 0 < w <= 2147483647 -> 0 < h <= 2147483647 -> 0 < ch -> w * h * ch <= 4294967296 ->
  holds s p b -> image (w * h * ch) b ->
  returns_sized s (trim w h ch p s) (fun w' h' b' =>
    exists l r t bt, trim_box 0 b w h ch l r t bt /\ is_box b w ch l r t bt w' h' b').
Proof.
  intros w h ch s p b Hwf Hw Hh Hch Hsz Hp Hi. unfold trim. pose proof Hp as [d [-> Hd]].
  change (is_null (Ptr d)) with false.
  replace (w <=? 0) with false by lia. replace (h <=? 0) with false by lia. replace (ch =? 0) with false by lia.
  cbn [orb]. cbv iota. apply trim_core_ok; auto. intros. now apply (pixels_match_ok b w h ch).
Qed.

(** ** Tolerance *)

Definition clamp100 (a : R) : R := Rmin 100 (Rmax 0 a).
Lemma clamp100_range a : (0 <= clamp100 a <= 100)%R.
Proof. unfold clamp100, Rmin, Rmax. destruct (Rle_dec 0 a); destruct (Rle_dec 100 _); lra. Qed.
Lemma clamp100_mono a b : (a <= b)%R -> (clamp100 a <= clamp100 b)%R.
Proof.
  intros H. unfold clamp100, Rmin, Rmax.
  destruct (Rle_dec 0 a); destruct (Rle_dec 0 b); repeat destruct (Rle_dec 100 _); lra.
Qed.

Lemma trim_tolerance_R pct : dfinite pct = true ->
  trim_tolerance pct = Ok (Ztrunc (gr 53 1024 (gr 53 1024 (clamp100 (B2R pct) * 255) / 100))) /\
  0 <= Ztrunc (gr 53 1024 (gr 53 1024 (clamp100 (B2R pct) * 255) / 100)) <= 255.
Proof.
  intros Hf. unfold trim_tolerance.
  assert (C : isd (if dlt (d_of_Z 100) (if dlt pct d0 then d0 else pct) then d_of_Z 100 else (if dlt pct d0 then d0 else pct))
     (clamp100 (B2R pct))).
  { pose proof (isd_finite pct Hf) as P. pose proof (d_of_Z_exact 100 ltac:(lia)) as P100.
    rewrite (dlt_R _ _ _ _ P isd_d0). unfold clamp100.
    destruct (Rlt_bool_spec (B2R pct) 0) as [H0|H0].
    - rewrite (dlt_R _ _ _ _ P100 isd_d0). rewrite Rlt_bool_false by lra.
      rewrite (Rmax_left 0) by lra. rewrite Rmin_right by lra. exact isd_d0.
    - rewrite (dlt_R _ _ _ _ P100 P). rewrite (Rmax_right 0) by lra.
      destruct (Rlt_bool_spec 100 (B2R pct)) as [H1|H1].
      + rewrite Rmin_left by lra. exact P100.
      + rewrite Rmin_right by lra. exact P. }
  cbv zeta. set (x := if dlt (d_of_Z 100) _ then _ else _) in *. clearbody x. pose proof (clamp100_range (B2R pct)) as Ha.
  set (a := clamp100 (B2R pct)) in *. clearbody a.
  assert (M : isd (dmul x (d_of_Z 255)) (gr 53 1024 (a * 255))).
  { apply dmul_R; auto; [apply d_of_Z_exact; lia|]. apply (abs_big _ 100000); [|lia]. apply Rabs_le. lra. }
  assert (B : (0 <= gr 53 1024 (a * 255) <= 25500)%R).
  { split; [apply (rd_ge_Z _ 0)|apply (rd_le_Z _ 25500)]; try lia; lra. }
  assert (D : isd (ddiv (dmul x (d_of_Z 255)) (d_of_Z 100)) (gr 53 1024 (gr 53 1024 (a * 255) / 100))).
  { apply ddiv_R; auto; [apply d_of_Z_exact; lia|]. apply (abs_big _ 100000); [|lia]. apply Rabs_le. lra. }
  apply (to_u8_R _ _ D).
  assert (0 <= gr 53 1024 (gr 53 1024 (a * 255) / 100) <= 255)%R; [|lra].
  split; [apply (rd_ge_Z _ 0)|apply (rd_le_Z _ 255)]; try lia; lra.
Qed.

Lemma trim_tolerance_ok pct : dfinite pct = true ->
  exists tol, trim_tolerance pct = Ok tol /\ 0 <= tol <= 255.
Proof. intros H. destruct (trim_tolerance_R pct H). eauto. Qed.

Lemma trim_tolerance_mono p q tp tq : dfinite p = true -> dfinite q = true -> dle p q = true ->
  trim_tolerance p = Ok tp -> trim_tolerance q = Ok tq -> tp <= tq.
Proof.
  intros Hp Hq H Ep Eq. destruct (trim_tolerance_R p Hp) as [E1' _]. destruct (trim_tolerance_R q Hq) as [E2' _].
  rewrite (dle_R _ _ _ _ (isd_finite p Hp) (isd_finite q Hq)) in H.
  destruct (Rle_bool_spec (B2R p) (B2R q)) as [L|L]; [|discriminate].
  replace tp with (Ztrunc (gr 53 1024 (gr 53 1024 (clamp100 (B2R p) * 255) / 100))) by congruence.
  replace tq with (Ztrunc (gr 53 1024 (gr 53 1024 (clamp100 (B2R q) * 255) / 100))) by congruence.
  apply Ztrunc_le. apply gr_le; try reflexivity. apply clamp100_mono in L.
  assert (gr 53 1024 (clamp100 (B2R p) * 255) <= gr 53 1024 (clamp100 (B2R q) * 255))%R; [|lra].
  apply gr_le; try reflexivity. lra.
Qed.

Lemma trim_threshold_ok : forall w h ch s p b pct tol,
  wf s -> 0 < w <= 2147483647 -> 0 < h <= 2147483647 -> 0 < ch -> w * h * ch <= 4294967296 ->
  holds s p b -> image (w * h * ch) b -> dfinite pct = true -> trim_tolerance pct = Ok tol ->
  returns_sized s (trim_threshold w h ch p pct s) (fun w' h' b' =>
    exists l r t bt, trim_box tol b w h ch l r t bt /\ is_box b w ch l r t bt w' h' b').
Proof.
  intros w h ch s p b pct tol Hwf Hw Hh Hch Hsz Hp Hi Hf Ht. unfold trim_threshold. pose proof Hp as [d [-> Hd]].
  change (is_null (Ptr d)) with false.
  replace (w <=? 0) with false by lia. replace (h <=? 0) with false by lia. replace (ch =? 0) with false by lia.
  cbn [orb]. cbv iota. rewrite Hf. cbn [negb]. cbv iota. hlift Ht.
  destruct (Z.eqb_spec tol 0) as [->|].
  - now apply trim_ok.
  - apply trim_core_ok; auto. intros. now apply (pixels_match_threshold_ok b w h ch).
Qed.

(** The box is unique. *)
Lemma trim_box_unique tol b w h ch l r t bt l' r' t' bt' :
  trim_box tol b w h ch l r t bt -> trim_box tol b w h ch l' r' t' bt' ->
  l = l' /\ r = r' /\ t = t' /\ bt = bt'.
Proof.
  intros (A1 & A2 & A3 & A4 & A5 & A6 & A7 & A8 & A9 & A10 & A11 & A12)
         (B1 & B2 & B3 & B4 & B5 & B6 & B7 & B8 & B9 & B10 & B11 & B12).
  assert (l = l').
  { destruct (Z.lt_trichotomy l l') as [H|[H|H]]; auto; exfalso.
    - destruct A6; [lia|]. apply H0. apply B5. lia.
    - destruct B6; [lia|]. apply H0. apply A5. lia. }
  subst l'.
  assert (r = r').
  { destruct (Z.lt_trichotomy r r') as [H|[H|H]]; auto; exfalso.
    - destruct B8; [lia|]. apply H0. apply A7. lia.
    - destruct A8; [lia|]. apply H0. apply B7. lia. }
  subst r'.
  assert (t = t').
  { destruct (Z.lt_trichotomy t t') as [H|[H|H]]; auto; exfalso.
    - destruct A10; [lia|]. apply H0. apply B9. lia.
    - destruct B10; [lia|]. apply H0. apply A9. lia. }
  subst t'.
  assert (bt = bt').
  { destruct (Z.lt_trichotomy bt bt') as [H|[H|H]]; auto; exfalso.
    - destruct B12; [lia|]. apply H0. apply A11. lia.
    - destruct A12; [lia|]. apply H0. apply B11. lia. }
  auto.
Qed.

Lemma trim_left_mono tol tol' b w h ch l r t bt l' r' t' bt' : tol <= tol' ->
  trim_box tol b w h ch l r t bt -> trim_box tol' b w h ch l' r' t' bt' -> l <= l'.
Proof.
  intros Ht (A1 & A2 & A3 & A4 & A5 & A6 & A7 & A8 & A9 & A10 & A11 & A12)
         (B1 & B2 & B3 & B4 & B5 & B6 & B7 & B8 & B9 & B10 & B11 & B12).
  destruct (Z.le_gt_cases l l') as [|H]; auto. exfalso.
  destruct B6 as [|B6]; [lia|]. apply B6. intros y Hy c Hc. specialize (A5 l' ltac:(lia) y Hy c Hc). lia.
Qed.

Lemma tolerance_percent : forall n, 0 <= n <= 100 -> trim_tolerance (d_of_Z n) = Ok (n * 255 / 100).
Proof.
  assert (H : forallb (fun k => match trim_tolerance (d_of_Z (Z.of_nat k)) with
     Ok t => t =? Z.of_nat k * 255 / 100 | _ => false end) (seq 0 101) = true) by (vm_compute; reflexivity).
  rewrite forallb_forall in H. intros n Hn. specialize (H (Z.to_nat n)).
  rewrite Z2Nat.id in H by lia.
  destruct (trim_tolerance (d_of_Z n)) as [t| | |]; try (exfalso; discriminate H; apply in_seq; lia).
  - f_equal. apply Z.eqb_eq. apply H. apply in_seq. lia.
Qed.

Lemma trim_threshold_zero : forall w h ch p pct s, dfinite pct = true -> trim_tolerance pct = Ok 0 ->
  trim_threshold w h ch p pct s = trim w h ch p s.
Proof.
  intros w h ch p pct s Hf Ht. unfold trim_threshold, trim.
  destruct (is_null p || (w <=? 0) || (h <=? 0) || (ch =? 0)) eqn:E; [reflexivity|].
  rewrite Hf. cbn [negb]. cbv iota. hlift Ht. reflexivity.
Qed.

Lemma trim_rejects : forall w h ch s p pct,
  p = Null \/ w <= 0 \/ h <= 0 \/ ch = 0 ->
  trim w h ch p s = Ok (Null, w, h, s) /\ trim_threshold w h ch p pct s = Ok (Null, w, h, s).
Proof.
  intros w h ch s p pct H. unfold trim, trim_threshold.
  replace (is_null p || (w <=? 0) || (h <=? 0) || (ch =? 0)) with true; [auto|].
  destruct H as [->|[H|[H|H]]]; [reflexivity| | |]; destruct (is_null p); cbn [orb]; lia.
Qed.

Lemma trim_threshold_nonfinite : forall w h ch s p pct, dfinite pct = false ->
  trim_threshold w h ch p pct s = Ok (Null, w, h, s).
Proof.
  intros w h ch s p pct H. unfold trim_threshold. rewrite H.
  destruct (is_null p || (w <=? 0) || (h <=? 0) || (ch =? 0)); reflexivity.
Qed.

(** The tolerance in 0..255 that a percentage stands for. *)
Definition tol_of (pct : f64) : Z := match trim_tolerance pct with Ok t => t | _ => 0 end.
Lemma tol_of_ok pct : dfinite pct = true -> trim_tolerance pct = Ok (tol_of pct) /\ 0 <= tol_of pct <= 255.
Proof. intros H. unfold tol_of. destruct (trim_tolerance_ok pct H) as (t & -> & B). auto. Qed.

Lemma trim_threshold_spec : exists T : f64 -> Z,
  (forall n, 0 <= n <= 100 -> T (d_of_Z n) = n * 255 / 100) /\
  (forall p q, dfinite p = true -> dfinite q = true -> dle p q = true -> T p <= T q) /\
  (forall p, dfinite p = true -> 0 <= T p <= 255) /\
  (forall w h ch s p pct, dfinite pct = true -> T pct = 0 -> trim_threshold w h ch p pct s = trim w h ch p s) /\
  forall w h ch s p b pct,
  wf s -> 0 < w <= 2147483647 -> 0 < h <= 2147483647 -> 0 < ch -> w * h * ch <= 4294967296 ->
  holds s p b -> image (w * h * ch) b -> dfinite pct = true ->
  returns_sized s (trim_threshold w h ch p pct s) (fun w' h' b' =>
    exists l r t bt, trim_box (T pct) b w h ch l r t bt /\ is_box b w ch l r t bt w' h' b').
Proof.
  exists tol_of. split; [|split; [|split; [|split]]].
  - intros n Hn. unfold tol_of. rewrite tolerance_percent by auto. reflexivity.
  - intros p q Hp Hq H. destruct (tol_of_ok p Hp), (tol_of_ok q Hq). eapply (trim_tolerance_mono p q); eauto.
  - intros p Hp. apply (tol_of_ok p Hp).
  - intros w h ch s p pct Hf H. apply trim_threshold_zero; auto. rewrite <- H. apply (proj1 (tol_of_ok pct Hf)).
  - intros w h ch s p b pct. intros. apply trim_threshold_ok; auto. apply (proj1 (tol_of_ok pct ltac:(assumption))).
Qed.

(** A trimmed picture that lost no row is not trimmed again. *)
Lemma trim_again tol b w h ch l r w' b' : 0 < ch ->
  trim_box tol b w h ch l r 0 h -> is_box b w ch l r 0 h w' h b' ->
  trim_box tol b' w' h ch 0 w' 0 h.
Proof.
  intros Hch (A1 & A2 & A3 & A4 & A5 & A6 & A7 & A8 & A9 & A10 & A11 & A12) (-> & _ & X & G).
  assert (V : forall x y x' y', 0 <= x < r - l -> 0 <= y < h -> 0 <= x' < r - l -> 0 <= y' < h ->
    px_close tol b' (r - l) ch x y x' y' <-> px_close tol b w ch (l + x) y (l + x') y').
  { intros x y x' y' Hx Hy Hx' Hy'. unfold px_close, pixv.
    split; intros H c Hc; specialize (H c Hc); rewrite !G in * by auto; rewrite !Z.add_0_l in *; exact H. }
  assert (C : forall x, 0 <= x < r - l -> col_uniform tol b' (r - l) h ch x <-> col_uniform tol b w h ch (l + x)).
  { intros x Hx. unfold col_uniform. split; intros H y Hy; specialize (H y Hy); apply V; auto; lia. }
  assert (R : forall y, 0 <= y < h -> row_uniform tol b' (r - l) ch 0 (r - l) y <-> row_uniform tol b w ch l r y).
  { intros y Hy. unfold row_uniform. split; intros H x Hx.
    - specialize (H (x - l) ltac:(lia)). apply V in H; try lia. replace (l + (x - l)) with x in H by lia.
      rewrite Z.add_0_r in H. exact H.
    - specialize (H (l + x) ltac:(lia)). apply V; try lia. rewrite Z.add_0_r. exact H. }
  unfold trim_box. do 4 (split; [lia|]). split; [intros; lia|]. split; [|split; [intros; lia|split; [|split; [intros; lia|split; [|split; [intros; lia|]]]]]].
  - destruct A6 as [A6|A6]; [left; lia|]. right. rewrite C by lia. rewrite Z.add_0_r. exact A6.
  - destruct A8 as [A8|A8]; [left; lia|]. right. rewrite C by lia. replace (l + (r - l - 1)) with (r - 1) by lia. exact A8.
  - destruct A10 as [A10|A10]; [left; lia|]. right. rewrite R by lia. exact A10.
  - destruct A12 as [A12|A12]; [left; lia|]. right. rewrite R by lia. exact A12.
Qed.

Definition trims (w h ch : Z) := calls_sized (fun w h p => trim w h ch p) w h.

Lemma trims_inv w h ch b w' h' b' :
  0 < w <= 2147483647 -> 0 < h <= 2147483647 -> 0 < ch -> w * h * ch <= 4294967296 ->
  image (w * h * ch) b -> trims w h ch b w' h' b' ->
  exists l r t bt, trim_box 0 b w h ch l r t bt /\ is_box b w ch l r t bt w' h' b'.
Proof.
  intros Hw Hh Hch Hsz Hi (s & p & q & s' & Hwf & Hp & E & Hq).
  destruct (trim_ok w h ch s p b Hwf Hw Hh Hch Hsz Hp Hi) as (q' & w1 & h1 & s1 & E' & _ & H).
  rewrite E in E'. injection E' as <- <- <- <-. destruct Hq as (d & -> & Hd).
  destruct H as (_ & (b1 & Hb & H) & _). rewrite Hd in Hb. injection Hb as <-. exact H.
Qed.

Lemma trim_idempotent_rows w h ch b w' b' w'' h'' b'' :
  0 < w <= 2147483647 -> 0 < h <= 2147483647 -> 0 < ch -> w * h * ch <= 4294967296 ->
  image (w * h * ch) b -> trims w h ch b w' h b' -> trims w' h ch b' w'' h'' b'' ->
  w'' = w' /\ h'' = h /\ same_bytes (w' * h * ch) b' b''.
Proof.
  intros Hw Hh Hch Hsz Hi T1 T2.
  destruct (trims_inv _ _ _ _ _ _ _ Hw Hh Hch Hsz Hi T1) as (l & r & t & bt & B & X).
  pose proof B as (B1 & B2 & B3 & B4 & _). pose proof X as (-> & Eh & Xi & _).
  assert (t = 0 /\ bt = h) as [-> ->] by lia.
  assert (Hsz' : (r - l) * h * ch <= 4294967296).
  { eapply Z.le_trans; [|exact Hsz]. apply Z.mul_le_mono_nonneg_r; [lia|]. apply Z.mul_le_mono_nonneg_r; lia. }
  destruct (trims_inv (r - l) h ch b' w'' h'' b'') as (l' & r' & t' & bt' & B' & X'); auto; try lia.
  { destruct Xi as [? ?]; auto. }
  pose proof (trim_again 0 b w h ch l r (r - l) b' Hch B X) as B''.
  destruct (trim_box_unique _ _ _ _ _ _ _ _ _ _ _ _ _ B' B'') as (-> & -> & -> & ->).
  destruct X' as (E1' & E2' & (L' & X') & G). rewrite Z.sub_0_r in *. subst w'' h''.
  do 2 (split; [reflexivity|]). intros j Hj.
  destruct (px_decomp (r - l) h ch j) as (x & y & c & Hx & Hy & Hc & Ej); try lia.
  specialize (G x y c Hx Hy Hc). unfold pix in G. rewrite !Z.add_0_l in G. subst j. exact G.
Qed.
