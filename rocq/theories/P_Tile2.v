From Coq Require Import Reals Lra Psatz.
From Flocq Require Import Core BinarySingleNaN.
From Verif Require Import Base BaseLemmas F FLemmas FErr FLemmas32 FNear Heap Spec HeapLemmas Spec_Blur M_Blur P_Color P_Blur M_Geom P_Geom P_Crop Spec_Tile.
Local Open Scope Z_scope.

Section Exact.
Context (radius : f64) (r : R) (Hd : isd radius r) (Hr : (1 / 1000000000000 <= r <= 1000)%R).
Context (S : R) (kb : buf f32) (HS : (r / 4 <= S <= 2 * r)%R) (HK : kernel_good r S kb).
Notation R0 := (Zfloor r).
(** The value one pass gives position [x] of the values [d 0 .. d (n - 1)] *)
Definition line (d : Z -> Z -> Z) (n x c : Z) : Z := quot (for_k radius (tap r kb d n x)) c.
Definition exactly (w h : Z) (b' : buf Z) (q : Z -> Z -> Z -> Z) : Prop :=
  exact_image (w * h * 4) b' /\
  forall x y c, 0 <= x < w -> 0 <= y < h -> 0 <= c < 4 -> pix b' w 4 x y c = Some (if c =? 3 then 255 else q x y c).

Lemma for_k_ext body body' : (forall k s, - R0 <= k <= R0 -> body k s = body' k s) -> for_k radius body = for_k radius body'.
Proof.
  intros H. unfold for_k. rewrite (to_i32_gen _ _ (dneg_R _ _ Hd)) by (apply Rabs_le; lra). cbn [bind].
  rewrite Ztrunc_opp, (btrunc_R _ _ Hd), trunc_pos by lra. apply for_ext. intros k s Hk. apply H. lia.
Qed.

Lemma line_tile d d' n N x0 u c : 0 <= x0 -> x0 + n <= N -> 0 <= u < n -> covered R0 N x0 n u ->
  (forall i c, 0 <= i < n -> 0 <= c < 3 -> d' i c = d (x0 + i) c) -> line d' n u c = line d N (x0 + u) c.
Proof.
  intros H0 H1 Hu [K1 K2] E. unfold line. f_equal. apply for_k_ext. intros k s Hk. unfold tap.
  replace ((0 <=? x0 + u + k) && (x0 + u + k <? N)) with ((0 <=? u + k) && (u + k <? n)) by lia.
  destruct ((0 <=? u + k) && (u + k <? n)) eqn:EI; [|reflexivity]. rewrite !E by lia. replace (x0 + (u + k)) with (x0 + u + k) by lia. reflexivity.
Qed.

Lemma pass_h_exact w h b out : 0 < w -> 0 < h -> w * h * 4 <= 4294967296 -> image (w * h * 4) b -> blen out = w * h * 4 ->
  exists b', pass_h w h (w * h) b kb radius out = Ok b' /\ exactly w h b' (fun x y c => line (fun i c => pixv b w 4 i y c) w x c).
Proof.
  intros Hw Hh Hs Hb Hl. destruct (pass_h_ok radius r Hd Hr S kb HS HK w h b out Hw Hh Hs Hb Hl) as (b0 & E0 & [X0 _]).
  pose proof (R0_range r Hr) as RR. unfold pass_h in *.
  set (m := fun x y => for_k radius (fun k s => tap_h w (w * h) b kb radius x y k s)) in *.
  assert (TT : forall x y k s, 0 <= x < w -> 0 <= y < h -> - R0 <= k <= R0 -> tap_h w (w * h) b kb radius x y k s = tap r kb (fun i c => pixv b w 4 i y c) w x k s).
  { intros x y k s Hx Hy Hk. unfold tap_h, tap. rewrite (off_small x k w) by nia. cbv zeta.
      destruct ((0 <=? x + k) && (x + k <? w)) eqn:EI.
      + assert (Hx2 : 0 <= x + k < w) by lia. pose proof (rm_bound w h (x + k) y Hx2 Hy) as B. assert (0 <= y * w) by nia.
        rewrite (u32_small (x + k)) by nia.
        replace ((x + k <? 0) || (w <=? x + k)) with false by lia.
        rewrite (u32_small (y * w)) by lia. rewrite (u32_small (y * w + (x + k))) by lia.
        rewrite (u32_small ((y * w + (x + k)) * 4)) by lia. rewrite (u32_small ((y * w + (x + k)) * 4 + 2)) by lia.
        rewrite u64_small by lia. replace (w * h * 4 <=? (y * w + (x + k)) * 4 + 2) with false by lia.
        apply (add_tap_ok radius r Hd Hr kb w h); auto.
      + replace ((x + k <? 0) || (w <=? u32 (x + k))) with true; [reflexivity|].
        symmetry. destruct (Z.ltb_spec (x + k) 0); [reflexivity|]. cbn [orb]. rewrite u32_small by nia. lia. }
  assert (T : forall x y, 0 <= x < w -> 0 <= y < h -> exists s, m x y = Ok s /\ forall c, 0 <= c < 3 ->
     to_u8_f (fdiv (sel s c) (wt s)) = Ok (quot (m x y) c)).
  { intros x y Hx Hy. destruct (for_k_ok radius r Hd Hr S kb HS HK w x (fun i c => pixv b w 4 i y c) (fun k s => tap_h w (w * h) b kb radius x y k s)) as (s & E & Q); auto.
    - intros i c Hi Hc. apply (px_byte w h); auto; lia.
    - exists s. split; [exact E|]. intros c Hc. apply Q; auto. }
  destruct (loop2d_writes (w * h * 4) 4 w h (fun x y => (y * w + x) * 4)
    (fun x y c => Some (if c =? 3 then 255 else quot (m x y) c))
    (fun x y out => s <- m x y ;; put_px out w x y s) out) as (b' & E & L & V & _); try lia.
  - intros x y Hx Hy o Ho. destruct (T x y Hx Hy) as (s & Es & Hq).
    destruct (put_px_ok w h x y s (quot (m x y)) o) as (b1 & P1 & P2 & P3); auto.
    exists b1. split; [|split; auto]. rewrite Es. exact P1.
  - intros x y x' y' Hx Hy Hx' Hy' D. destruct (rm_lt w x y x' y') as [Q|Q]; auto; lia.
  - exists b'. split; [exact E|]. pose proof (eq_trans (eq_sym E0) E) as EE. injection EE as ->. split; [exact X0|]. intros x y c Hx Hy Hc.
    unfold pix. rewrite V by lia. unfold m, line. rewrite (for_k_ext _ (tap r kb (fun i c => pixv b w 4 i y c) w x)) by (intros; apply TT; auto). reflexivity.
Qed.

Lemma pass_v_exact w h b out : 0 < w -> 0 < h -> w * h * 4 <= 4294967296 -> image (w * h * 4) b -> blen out = w * h * 4 ->
  exists b', pass_v w h b kb radius out = Ok b' /\ exactly w h b' (fun x y c => line (fun i c => pixv b w 4 x i c) h y c).
Proof.
  intros Hw Hh Hs Hb Hl. destruct (pass_v_ok radius r Hd Hr S kb HS HK w h b out Hw Hh Hs Hb Hl) as (b0 & E0 & [X0 _]).
  pose proof (R0_range r Hr) as RR. unfold pass_v in *.
  set (m := fun x y => for_k radius (fun k s => tap_v w h b kb radius x y k s)) in *.
  assert (TT : forall x y k s, 0 <= x < w -> 0 <= y < h -> - R0 <= k <= R0 -> tap_v w h b kb radius x y k s = tap r kb (fun i c => pixv b w 4 x i c) h y k s).
  { intros x y k s Hx Hy Hk. unfold tap_v, tap. rewrite (off_small y k h) by nia. cbv zeta.
      destruct ((0 <=? y + k) && (y + k <? h)) eqn:EI.
      + assert (Hy2 : 0 <= y + k < h) by lia. pose proof (rm_bound w h x (y + k) Hx Hy2) as B. assert (0 <= (y + k) * w) by nia.
        rewrite (u32_small (y + k)) by nia.
        replace ((y + k <? 0) || (h <=? y + k)) with false by lia.
        rewrite (u32_small ((y + k) * w)) by lia. rewrite (u32_small ((y + k) * w + x)) by lia.
        rewrite (u32_small (((y + k) * w + x) * 4)) by lia.
        apply (add_tap_ok radius r Hd Hr kb w h); auto.
      + replace ((y + k <? 0) || (h <=? u32 (y + k))) with true; [reflexivity|].
        symmetry. destruct (Z.ltb_spec (y + k) 0); [reflexivity|]. cbn [orb]. rewrite u32_small by nia. lia. }
  assert (T : forall x y, 0 <= x < w -> 0 <= y < h -> exists s, m x y = Ok s /\ forall c, 0 <= c < 3 ->
     to_u8_f (fdiv (sel s c) (wt s)) = Ok (quot (m x y) c)).
  { intros x y Hx Hy. destruct (for_k_ok radius r Hd Hr S kb HS HK h y (fun i c => pixv b w 4 x i c) (fun k s => tap_v w h b kb radius x y k s)) as (s & E & Q); auto.
    - intros i c Hi Hc. apply (px_byte w h); auto; lia.
    - exists s. split; [exact E|]. intros c Hc. apply Q; auto. }
  destruct (loop2d_writes (w * h * 4) 4 h w (fun y x => (y * w + x) * 4)
    (fun y x c => Some (if c =? 3 then 255 else quot (m x y) c))
    (fun y x out => s <- m x y ;; put_px out w x y s) out) as (b' & E & L & V & _); try lia.
  - intros y x Hy Hx o Ho. destruct (T x y Hx Hy) as (s & Es & Hq).
    destruct (put_px_ok w h x y s (quot (m x y)) o) as (b1 & P1 & P2 & P3); auto.
    exists b1. split; [|split; auto]. rewrite Es. exact P1.
  - intros y x y' x' Hy Hx Hy' Hx' D. destruct (rm_lt w x y x' y') as [Q|Q]; auto; lia.
  - exists b'. split; [exact E|]. pose proof (eq_trans (eq_sym E0) E) as EE. injection EE as ->. split; [exact X0|]. intros x y c Hx Hy Hc.
    unfold pix. rewrite V by lia. unfold m, line. rewrite (for_k_ext _ (tap r kb (fun i c => pixv b w 4 x i c) h y)) by (intros; apply TT; auto). reflexivity.
Qed.

(** Both passes *)
Definition both (w h : Z) (b b' : buf Z) : Prop := exists t,
  exactly w h t (fun x y c => line (fun i c => pixv b w 4 i y c) w x c) /\ exactly w h b' (fun x y c => line (fun i c => pixv t w 4 x i c) h y c).
Lemma blur_both e n w h s p b : to_u32 (dadd (dmul (d_of_Z 2) radius) F.d1) = Ok n -> fill_kernel e radius n (bnew n) = Ok kb ->
  0 < w -> 0 < h -> w * h * 4 <= 4294967296 -> wf s -> holds s p b -> image (w * h * 4) b ->
  returns_fresh s (apply_gaussian_blur e w h radius p s) (both w h b).
Proof.
  intros E1 E2 Hw Hh Hs Hwf [d [-> Hm]] Hb.
  destruct (radius_guards radius r Hd ltac:(lra)) as (G1 & G2 & G3 & G4).
  rewrite blur_guards by (auto; unfold SIZE_MAX; lia).
  destruct (pass_h_exact w h b (bnew (w * h * 4)) Hw Hh Hs Hb eq_refl) as (b1 & E3 & [X1 V1]).
  assert (L1 : blen b1 = w * h * 4) by apply X1.
  destruct (bcopy_ok (bnew (w * h * 4)) 0 b1 0 (w * h * 4)) as (t & Et & Lt & Gt); try lia; [cbn [blen bnew]; lia|].
  cbn [blen bnew] in Lt.
  assert (St : same_bytes (w * h * 4) b1 t).
  { intros i Hi. rewrite Gt. replace ((0 <=? i) && (i <? 0 + w * h * 4)) with true by lia. f_equal. lia. }
  assert (It : image (w * h * 4) t).
  { split; [lia|]. intros i Hi. rewrite St by auto. apply X1; auto. }
  destruct (pass_v_exact w h t b1 Hw Hh Hs It L1) as (b2 & E4 & P2).
  eapply returns_fresh_weaken; [|apply (blur_shell e w h radius n kb b b1 t b2 s d); auto].
  intros b' ->. exists t. split; [|exact P2]. split; [split; [lia|exact It]|]. intros x y c Hx Hy Hc. pose proof (rm_bound w h x y Hx Hy).
  rewrite <- V1 by auto. unfold pix. apply St. lia.
Qed.
End Exact.

From Verif Require Import Spec_Morph.
Lemma tile_blur e w h radius x0 y0 cw ch u v c b d t t1 : exp_ok e -> 0 < w -> 0 < h -> w * h * 4 <= 4294967296 ->
  is_finite radius = true -> (1 / 1000000000000 <= B2R radius <= 1000)%R -> image (w * h * 4) b ->
  0 <= x0 -> 0 <= y0 -> 0 < cw -> 0 < ch -> x0 + cw <= w -> y0 + ch <= h -> inside cw ch u v -> 0 <= c < 4 ->
  calls (fun w h p => crop w h 4 p x0 y0 cw ch) w h b t ->
  calls (fun w h p => apply_gaussian_blur e w h radius p) w h b d -> calls (fun w h p => apply_gaussian_blur e w h radius p) cw ch t t1 ->
  knows (Zfloor (B2R radius)) w h x0 y0 cw ch u v -> pix t1 cw 4 u v c = pix d w 4 (x0 + u) (y0 + v) c.
Proof.
  intros He Hw Hh Hs Fr Hr Ib Hx Hy Hcw Hch Hxw Hyh [Iu Iv] Hc C1 C2 C3 [Kx Ky].
  assert (Uw : is_u32 w) by (unfold is_u32, U32; nia). assert (Uh : is_u32 h) by (unfold is_u32, U32; nia). assert (U4 : is_u32 4) by (unfold is_u32, U32; lia).
  apply (calls_inv' _ _ _ _ _ _ (fun s p Hwf Hp => crop_ok w h 4 p x0 y0 cw ch s b Hwf Uw Uh U4 ltac:(lia) ltac:(unfold SIZE_MAX; lia) Hp Ib Hx Hy Hcw Hch Hxw Hyh)) in C1.
  destruct C1 as [X1 V1].
  set (r := B2R radius) in *. assert (Hd : isd radius r) by (split; auto).
  destruct (kernel_size_ok radius r Hd Hr) as (n & E1 & Hn). destruct (fill_ok e radius r He Hd Hr n Hn) as (kb & S & E2 & HS & HK).
  apply (calls_inv' _ _ _ _ _ _ (fun s p Hwf Hp => blur_both radius r Hd Hr S kb HS HK e n w h s p b E1 E2 Hw Hh Hs Hwf Hp Ib)) in C2.
  apply (calls_inv' _ _ _ _ _ _ (fun s p Hwf Hp => blur_both radius r Hd Hr S kb HS HK e n cw ch s p t E1 E2 Hcw Hch ltac:(nia) Hwf Hp (proj2 X1))) in C3.
  destruct C2 as (g & [_ G] & [_ D]). destruct C3 as (g' & [_ G'] & [_ D']).
  rewrite D' by auto. rewrite D by lia. destruct (Z.eqb_spec c 3); [reflexivity|]. f_equal.
  apply (line_tile radius r Hd Hr kb); auto. intros i k Hi Hk. unfold pixv. rewrite G', G by lia. replace (k =? 3) with false by lia.
  apply (line_tile radius r Hd Hr kb); auto. intros j l Hj Hl. unfold pixv. rewrite V1 by lia. reflexivity.
Qed.

(** With enough memory the blur returns a picture. *)
Lemma blur_runs e w h radius b : exp_ok e -> 0 < w -> 0 < h -> w * h * 4 <= 4294967296 -> is_finite radius = true -> (1 / 1000000000000 <= B2R radius <= 1000)%R ->
  image (w * h * 4) b -> exists d, calls (fun w h p => apply_gaussian_blur e w h radius p) w h b d.
Proof.
  intros He Hw Hh Hs Fr Hr Ib. set (s := mkst (upd (fun _ => None) 0 (Some (OBytes b))) 1 (fun _ => true) 0).
  assert (W : wf s). { intros i Hi. cbn in *. rewrite upd_other by lia. reflexivity. }
  assert (H : holds s (Ptr 0) b) by (exists 0; split; reflexivity).
  destruct (blur_ok e w h radius s (Ptr 0) b He Hw Hh Hs Fr Hr W H Ib) as (p & s' & E & _ & K). destruct p as [|q].
  - destruct K as (_ & n & _ & F). discriminate F.
  - destruct K as (_ & (d & M & _) & _). exists d, s, (Ptr 0), q, s'. repeat split; auto. exists q. auto.
Qed.
