From Verif Require Import Base BaseLemmas F Heap Spec Spec_Trim Spec_Morph Spec_Rel Spec_Ops Spec_Turn M_Geom M_Trim P_Geom P_Crop P_Trim P_Color P_Rel.
Local Open Scope Z_scope.

Lemma turn_crop o w h b b1 x y cw ch c1 d d1 : dims_ok w h -> image (w * h * 4) b ->
  0 <= x -> 0 <= y -> 0 < cw -> 0 < ch -> x + cw <= w -> y + ch <= h ->
  calls (turn o) w h b b1 ->
  calls (fun w' h' p => crop w' h' 4 p (turned_left o w h x y cw ch) (turned_top o w h x y cw ch) (tw o cw ch) (th o cw ch)) (tw o w h) (th o w h) b1 c1 ->
  calls (fun w h p => crop w h 4 p x y cw ch) w h b d -> calls (turn o) cw ch d d1 ->
  same_bytes (cw * ch * 4) c1 d1.
Proof.
  intros D I Hx Hy Hcw Hch Hxw Hyh C1 C2 C3 C4. pose proof (dims_turn o w h D) as D'. pose proof D as (Uw & Uh & Pw & Ph & Sz).
  destruct (turn_calls o w h b b1 D I C1) as [X1 V1].
  assert (U4 : is_u32 4) by (unfold is_u32, U32; lia).
  apply (calls_inv' _ _ _ _ _ _ (fun s p Hwf Hp => crop_ok w h 4 p x y cw ch s b Hwf Uw Uh U4 ltac:(lia) Sz Hp I Hx Hy Hcw Hch Hxw Hyh)) in C3.
  destruct C3 as [X3 V3].
  assert (Dc : dims_ok cw ch). { unfold dims_ok, is_u32, U32, SIZE_MAX in *. repeat split; try lia; nia. }
  destruct (turn_calls o cw ch d d1 Dc (proj2 X3) C4) as [X4 V4].
  assert (B : 0 <= turned_left o w h x y cw ch /\ 0 <= turned_top o w h x y cw ch /\ 0 < tw o cw ch /\ 0 < th o cw ch /\
    turned_left o w h x y cw ch + tw o cw ch <= tw o w h /\ turned_top o w h x y cw ch + th o cw ch <= th o w h) by (destruct o; cbn; lia).
  destruct B as (B1 & B2 & B3 & B4 & B5 & B6). pose proof D' as (Uw' & Uh' & Pw' & Ph' & Sz').
  apply (calls_inv' _ _ _ _ _ _ (fun s p Hwf Hp => crop_ok (tw o w h) (th o w h) 4 p _ _ _ _ s b1 Hwf Uw' Uh' U4 ltac:(lia) Sz' Hp (proj2 X1) B1 B2 B3 B4 B5 B6)) in C2.
  destruct C2 as [X2 V2]. rewrite <- (tw_th o cw ch). apply same_bytes_pix; auto. intros u v c Hu Hv Hc.
  rewrite V4 by (auto; split; auto). rewrite V2 by auto. destruct (from_inside o cw ch u v (conj Hu Hv)) as [F1 F2]. rewrite V3 by auto.
  rewrite V1 by (auto; split; lia). f_equal; destruct o; cbn; lia.
Qed.

(** ** Trim *)
Lemma uniform_col b w h x : 0 < h -> (col_uniform 0 b w h 4 x <->
  forall y y' c, 0 <= y < h -> 0 <= y' < h -> 0 <= c < 4 -> pixv b w 4 x y c = pixv b w 4 x y' c).
Proof.
  intros Hh. split.
  - intros H y y' c Hy Hy' Hc. pose proof (H y Hy c Hc). pose proof (H y' Hy' c Hc). lia.
  - intros H y Hy c Hc. rewrite (H y 0 c) by lia. lia.
Qed.
Lemma uniform_row b w l r y : l < r -> (row_uniform 0 b w 4 l r y <->
  forall x x' c, l <= x < r -> l <= x' < r -> 0 <= c < 4 -> pixv b w 4 x y c = pixv b w 4 x' y c).
Proof.
  intros Hl. split.
  - intros H x x' c Hx Hx' Hc. pose proof (H x Hx c Hc). pose proof (H x' Hx' c Hc). lia.
  - intros H x Hx c Hc. rewrite (H x l c) by lia. lia.
Qed.
Definition flipx (o : turning) : bool := match o with Mirror_x | Half_turn => true | _ => false end.
Definition flipy (o : turning) : bool := match o with Mirror_y | Half_turn => true | _ => false end.
Definition fl (m : bool) (n i : Z) : Z := if m then n - 1 - i else i.

Section Mirror.
Variables (mx my : bool) (w h : Z) (b b1 : buf Z).
Hypothesis V : forall x y c, inside w h x y -> 0 <= c < 4 -> pixv b1 w 4 x y c = pixv b w 4 (fl mx w x) (fl my h y) c.
Lemma V' x y c : inside w h x y -> 0 <= c < 4 -> pixv b w 4 x y c = pixv b1 w 4 (fl mx w x) (fl my h y) c.
Proof. intros [Hx Hy] Hc. rewrite V by (auto; unfold inside, fl; destruct mx, my; lia). f_equal; unfold fl; destruct mx, my; lia. Qed.
Lemma mirror_col x : 0 <= x < w -> 0 < h -> (col_uniform 0 b1 w h 4 x <-> col_uniform 0 b w h 4 (fl mx w x)).
Proof.
  intros Hx Hh. rewrite !uniform_col by auto. split; intros H y y' c Hy Hy' Hc.
  - rewrite !V' by (auto; unfold inside, fl; destruct mx; lia). replace (fl mx w (fl mx w x)) with x by (unfold fl; destruct mx; lia). apply H; unfold fl; destruct my; lia.
  - rewrite !V by (auto; split; auto). apply H; unfold fl; destruct my; lia.
Qed.
Lemma mirror_row l r y : 0 <= l < r -> r <= w -> 0 <= y < h ->
  (row_uniform 0 b1 w 4 l r y <-> row_uniform 0 b w 4 (if mx then w - r else l) (if mx then w - l else r) (fl my h y)).
Proof.
  intros Hl Hr Hy. rewrite !uniform_row by (destruct mx; lia). split; intros H x x' c Hx Hx' Hc.
  - rewrite !V' by (auto; unfold inside, fl; destruct mx, my; lia). replace (fl my h (fl my h y)) with y by (unfold fl; destruct my; lia).
    apply H; unfold fl; destruct mx; lia.
  - rewrite !V by (auto; unfold inside; lia). apply H; unfold fl; destruct mx; lia.
Qed.
Lemma mirror_box l r t bt : trim_box 0 b w h 4 l r t bt -> 2 <= r - l -> (exists y, t <= y < bt /\ ~ row_uniform 0 b w 4 l r y) ->
  trim_box 0 b1 w h 4 (if mx then w - r else l) (if mx then w - l else r) (if my then h - bt else t) (if my then h - t else bt).
Proof.
  intros (B1 & B2 & B3 & B4 & C1 & C2 & C3 & C4 & R1 & R2 & R3 & R4) Hw (y0 & Hy0 & N0).
  assert (Nl : ~ col_uniform 0 b w h 4 l) by (destruct C2; [lia|auto]).
  assert (Nr : ~ col_uniform 0 b w h 4 (r - 1)) by (destruct C4; [lia|auto]).
  assert (Nt : ~ row_uniform 0 b w 4 l r t).
  { destruct R2 as [E|N]; [|auto]. assert (y0 = t) by lia. subst y0. auto. }
  assert (Nb : ~ row_uniform 0 b w 4 l r (bt - 1)).
  { destruct R4 as [E|N]; [|auto]. assert (y0 = bt - 1) by lia. subst y0. auto. }
  set (L := if mx then w - r else l). set (R := if mx then w - l else r). set (T := if my then h - bt else t). set (B := if my then h - t else bt).
  assert (S : 0 <= L < R /\ R <= w /\ 0 <= T < B /\ B <= h) by (unfold L, R, T, B; destruct mx, my; lia). destruct S as (S1 & S2 & S3 & S4).
  assert (RU : forall y, 0 <= y < h -> (row_uniform 0 b1 w 4 L R y <-> row_uniform 0 b w 4 l r (fl my h y))).
  { intros y Hy. rewrite mirror_row by auto. replace (if mx then w - R else L) with l by (unfold L, R; destruct mx; lia).
    replace (if mx then w - L else R) with r by (unfold L, R; destruct mx; lia). reflexivity. }
  split; [exact S1|]. split; [exact S2|]. split; [exact S3|]. split; [exact S4|].
  split; [|split; [|split; [|split; [|split; [|split; [|split]]]]]].
  - intros x Hx. apply mirror_col; [lia|lia|]. unfold L, fl in *. destruct mx; [apply C3|apply C1]; lia.
  - right. rewrite mirror_col by lia. unfold L, fl. destruct mx; [replace (w - 1 - (w - r)) with (r - 1) by lia|]; auto.
  - intros x Hx. apply mirror_col; [lia|lia|]. unfold R, fl in *. destruct mx; [apply C1|apply C3]; lia.
  - right. rewrite mirror_col by lia. unfold R, fl. destruct mx; [replace (w - 1 - (w - l - 1)) with l by lia|]; auto.
  - intros y Hy. apply RU; [lia|]. unfold T, fl in *. destruct my; [apply R3|apply R1]; lia.
  - right. rewrite RU by lia. unfold T, fl. destruct my; [replace (h - 1 - (h - bt)) with (bt - 1) by lia|]; auto.
  - intros y Hy. apply RU; [lia|]. unfold B, fl in *. destruct my; [apply R1|apply R3]; lia.
  - right. rewrite RU by lia. unfold B, fl. destruct my; [replace (h - 1 - (h - t - 1)) with t by lia|]; auto.
Qed.
End Mirror.

Lemma mirror_trim o w h b b1 w1 h1 c1 w2 h2 d d1 : In o [Mirror_x; Mirror_y; Half_turn] ->
  0 < w <= 2147483647 -> 0 < h <= 2147483647 -> w * h * 4 <= 4294967296 -> image (w * h * 4) b ->
  calls (turn o) w h b b1 -> calls_sized (fun w h p => trim w h 4 p) w h b1 w1 h1 c1 ->
  calls_sized (fun w h p => trim w h 4 p) w h b w2 h2 d -> calls (turn o) w2 h2 d d1 ->
  (exists x x' y c, inside w2 h2 x y /\ inside w2 h2 x' y /\ 0 <= c < 4 /\ pix d w2 4 x y c <> pix d w2 4 x' y c) ->
  w1 = w2 /\ h1 = h2 /\ same_bytes (w2 * h2 * 4) c1 d1.
Proof.
  intros Ho Hw Hh Hs I C1 C2 C3 C4 (x & x' & y & c & [Ix Iy] & [Ix' _] & Hc & Ne).
  assert (D : dims_ok w h) by (unfold dims_ok, is_u32, U32, SIZE_MAX; lia).
  assert (So : tw o w h = w /\ th o w h = h) by (destruct Ho as [<-|[<-|[<-|[]]]]; auto).
  destruct (turn_calls o w h b b1 D I C1) as [X1 V1]. destruct So as [Sw Sh]. rewrite Sw, Sh in *.
  apply (sized_inv _ _ _ _ _ _ _ _ (fun s p Hwf Hp => trim_ok w h 4 s p b Hwf Hw Hh ltac:(lia) Hs Hp I)) in C3.
  apply (sized_inv _ _ _ _ _ _ _ _ (fun s p Hwf Hp => trim_ok w h 4 s p b1 Hwf Hw Hh ltac:(lia) Hs Hp (proj2 X1))) in C2.
  destruct C3 as (l & r & t & bt & B & Ew & Eh & Xd & Vd). destruct C2 as (l1 & r1 & t1 & bt1 & B' & Ew1 & Eh1 & Xc & Vc).
  assert (F : forall x y, from_x o w h x y = fl (flipx o) w x /\ from_y o w h x y = fl (flipy o) h y)
    by (intros; destruct Ho as [<-|[<-|[<-|[]]]]; cbn; auto).
  assert (VV : forall x y c, inside w h x y -> 0 <= c < 4 -> pixv b1 w 4 x y c = pixv b w 4 (fl (flipx o) w x) (fl (flipy o) h y) c).
  { intros u v k IN Hk. unfold pixv. rewrite V1 by auto. destruct (F u v) as [-> ->]. reflexivity. }
  pose proof B as (A1 & A2 & A3 & A4 & _).
  assert (NU : ~ row_uniform 0 b w 4 l r (t + y)).
  { rewrite uniform_row by lia. intros H. apply Ne. rewrite !Vd by auto. specialize (H (l + x) (l + x') c ltac:(lia) ltac:(lia) Hc). revert H. unfold pixv.
    assert (K : forall u, 0 <= u < w -> exists v, pix b w 4 u (t + y) c = Some v).
    { intros u Hu. destruct I as [_ I]. unfold pix. destruct (I (((t + y) * w + u) * 4 + c)) as (v & -> & _); [nia|]. eauto. }
    destruct (K (l + x) ltac:(lia)) as (v & ->). destruct (K (l + x') ltac:(lia)) as (v' & ->). congruence. }
  assert (Hlr : 2 <= r - l). { assert (x <> x') by (intros ->; auto). lia. }
  assert (HE : exists y, t <= y < bt /\ ~ row_uniform 0 b w 4 l r y) by (exists (t + y); split; [lia|exact NU]).
  pose proof (mirror_box (flipx o) (flipy o) w h b b1 VV l r t bt B Hlr HE) as B2.
  destruct (trim_box_unique _ _ _ _ _ _ _ _ _ _ _ _ _ B' B2) as (-> & -> & -> & ->).
  assert (E : w1 = w2 /\ h1 = h2) by (destruct (flipx o), (flipy o); lia). destruct E as [-> ->]. split; [reflexivity|]. split; [reflexivity|].
  assert (Dd : dims_ok w2 h2). { unfold dims_ok, is_u32, U32, SIZE_MAX in *. repeat split; try lia; nia. }
  destruct (turn_calls o w2 h2 d d1 Dd (proj2 Xd) C4) as [X4 V4].
  assert (So : tw o w2 h2 = w2 /\ th o w2 h2 = h2) by (destruct Ho as [<-|[<-|[<-|[]]]]; auto). destruct So as [Sw2 Sh2]. rewrite Sw2, Sh2 in *.
  apply same_bytes_pix; [lia|lia|]. intros u v k Hu Hv Hk. rewrite V4 by (auto; split; auto). rewrite Vc by auto.
  assert (F2 : from_x o w2 h2 u v = fl (flipx o) w2 u /\ from_y o w2 h2 u v = fl (flipy o) h2 v) by (destruct Ho as [<-|[<-|[<-|[]]]]; cbn; auto).
  destruct F2 as [-> ->]. rewrite Vd by (auto; unfold fl; destruct (flipx o), (flipy o); lia).
  rewrite V1 by (auto; unfold inside; destruct (flipx o), (flipy o); lia). destruct (F ((if flipx o then w - r else l) + u) ((if flipy o then h - bt else t) + v)) as [-> ->].
  f_equal; unfold fl; destruct (flipx o), (flipy o); lia.
Qed.
