(** * P_Otsu3: what the near-optimality of the threshold means for pictures *)
From Coq Require Import Reals Lra Psatz.
From Verif Require Import Base BaseLemmas F Heap HeapLemmas Spec Spec_Color CountLemmas Spec_Otsu
  M_Color M_Otsu P_Color P_Color2 P_Color3 P_Blur P_Otsu P_Otsu2.
Local Open Scope Z_scope.

Lemma sum_counts G n : 0 <= n -> (forall i, 0 <= i < n -> 0 <= G i) ->
  forall k, sum_upto (fun v => count (fun i => G i =? v) n) k = count (fun i => G i <? Z.of_nat k) n.
Proof.
  intros Hn HG. induction k as [|k IH].
  - rewrite count_none; auto. intros i Hi. specialize (HG i Hi). cbn. apply Z.ltb_ge. lia.
  - rewrite sum_upto_S, IH. symmetry. apply count_split; auto. intros i Hi. specialize (HG i Hi).
    destruct (Z.ltb_spec (G i) (Z.of_nat (S k))), (Z.ltb_spec (G i) (Z.of_nat k)), (Z.eqb_spec (G i) (Z.of_nat k)); lia.
Qed.

Section Picture.
Context (w h : Z) (g : Z -> Z -> Z).
Hypothesis Hw : 1 <= w.
Hypothesis Hh : 1 <= h.
Hypothesis Hn : w * h < 4294967296.
Hypothesis Hg : forall x y, 0 <= x < w -> 0 <= y < h -> byte (g x y).

Lemma at_byte i : 0 <= i < w * h -> byte (g (i mod w) (i / w)).
Proof. intros Hi. destruct (rm_decomp w h i) as (Rx & Ry & _); auto; try lia. Qed.
Lemma pixels_sum : sum_upto (pixels_with w h g) 256 = w * h.
Proof.
  assert (N : 0 <= w * h) by nia. unfold pixels_with, count_px.
  rewrite (sum_counts (fun i => g (i mod w) (i / w)) (w * h) N).
  - apply count_all; auto. intros i Hi. pose proof (at_byte i Hi) as B. unfold byte in B. apply Z.ltb_lt. lia.
  - intros i Hi. apply at_byte in Hi. unfold byte in Hi. lia.
Qed.
Lemma pixels_ge0 v : 0 <= pixels_with w h g v.
Proof. unfold pixels_with, count_px. apply count_range. nia. Qed.

Lemma best : best_split w h g (T_otsu (pixels_with w h g) (w * h)).
Proof.
  destruct (split_good (pixels_with w h g) (w * h)) as (T & E & HT & B).
  - intros v _. apply pixels_ge0.
  - nia.
  - apply pixels_sum.
  - unfold best_split. replace (T_otsu _ _) with T; [auto|]. symmetry. now apply T_otsu_eq.
Qed.

Lemma sum_dark_two f u : 0 <= u < 256 -> (forall x, 0 <= x < u -> f x = 0) -> sum_dark f u = f u.
Proof.
  intros Hu Hz. unfold sum_dark. replace (Z.to_nat (u + 1)) with (S (Z.to_nat u)) by lia. rewrite sum_upto_S, Z2Nat.id by lia.
  replace (sum_upto f (Z.to_nat u)) with 0; [lia|].
  assert (B : forall j, Z.of_nat j <= u -> sum_upto f j = 0).
  { induction j as [|j IH]; intros Hj; [apply sum_upto_0|]. rewrite sum_upto_S, IH by lia. apply Hz; lia. }
  symmetry. apply B. lia.
Qed.
Lemma sum_all_two f u v : 0 <= u < v -> v < 256 -> (forall x, 0 <= x < 256 -> x <> u -> x <> v -> f x = 0) ->
  sum_upto f 256 = f u + f v.
Proof.
  intros Hu Hv Hz.
  assert (B : forall j, (j <= 256)%nat -> sum_upto f j = (if u <? Z.of_nat j then f u else 0) + (if v <? Z.of_nat j then f v else 0)).
  { induction j as [|j IH]; intros Hj; [rewrite sum_upto_0; destruct (Z.ltb_spec u (Z.of_nat 0)), (Z.ltb_spec v (Z.of_nat 0)); lia|].
    rewrite sum_upto_S, IH by lia.
    destruct (Z.ltb_spec u (Z.of_nat j)), (Z.ltb_spec v (Z.of_nat j)), (Z.ltb_spec u (Z.of_nat (S j))), (Z.ltb_spec v (Z.of_nat (S j))); try lia.
    - rewrite (Hz (Z.of_nat j)); lia.
    - replace (Z.of_nat j) with v by lia. lia.
    - rewrite (Hz (Z.of_nat j)); lia.
    - replace (Z.of_nat j) with u by lia. lia.
    - rewrite (Hz (Z.of_nat j)); lia. }
  rewrite (B 256%nat) by lia. replace (u <? Z.of_nat 256) with true by lia. replace (v <? Z.of_nat 256) with true by lia. reflexivity.
Qed.

Lemma two u v : 0 <= u < v -> v < 256 -> (forall x y, 0 <= x < w -> 0 <= y < h -> g x y = u \/ g x y = v) ->
  (w * h) * (w * h) <= pixels_with w h g u * pixels_with w h g v * ((v - u) * (v - u)) ->
  u <= T_otsu (pixels_with w h g) (w * h) < v.
Proof.
  intros Hu Hv Htwo Hsep. set (c := pixels_with w h g) in *.
  assert (Z0 : forall x, 0 <= x < 256 -> x <> u -> x <> v -> c x = 0).
  { intros x Hx Nu Nv. unfold c, pixels_with, count_px. apply count_none; [nia|]. intros i Hi.
    destruct (rm_decomp w h i) as (Rx & Ry & _); auto; try lia. apply Z.eqb_neq. destruct (Htwo _ _ Rx Ry); congruence. }
  pose proof (pixels_ge0 u) as Gu. pose proof (pixels_ge0 v) as Gv. fold c in Gu, Gv.
  assert (N1 : 1 <= w * h) by nia.
  assert (P2 : 0 < c u * c v * ((v - u) * (v - u))) by nia.
  assert (Pu : 0 < c u) by (destruct (Z.eq_dec (c u) 0) as [Q|]; [rewrite Q in P2|]; lia).
  assert (Pv : 0 < c v) by (destruct (Z.eq_dec (c v) 0) as [Q|]; [rewrite Q, Z.mul_0_r in P2|]; lia).
  assert (S1 : sum_upto c 256 = c u + c v) by (apply sum_all_two; auto).
  assert (S2 : sum_dark c u = c u) by (apply sum_dark_two; [lia|]; intros; apply Z0; lia).
  assert (S3 : sum_dark (fun x => x * c x) u = u * c u) by (apply (sum_dark_two (fun x => x * c x)); [lia|]; intros; rewrite Z0; lia).
  assert (S4 : sum_upto (fun x => x * c x) 256 = u * c u + v * c v).
  { apply (sum_all_two (fun x => x * c x)); auto. intros; rewrite Z0; lia. }
  pose proof pixels_sum as S5. fold c in S5.
  assert (SP : (1 <= separation c u)%R).
  { rewrite (separation_form c u _ _ _ _ S2 S1 S3 S4) by lia. rewrite <- S5, S1 in Hsep.
    clear -Pu Pv Hsep Hu. set (a := c u) in *. set (b := c v) in *. clearbody a b.
    assert (PA : (0 < IZR a)%R) by (apply IZR_lt; lia). assert (PB : (0 < IZR b)%R) by (apply IZR_lt; lia).
    apply IZR_le in Hsep. rewrite !mult_IZR, !plus_IZR, !minus_IZR in Hsep. rewrite !plus_IZR, !mult_IZR.
    set (A := IZR a) in *. set (B := IZR b) in *. set (U := IZR u) in *. set (V := IZR v) in *. clearbody A B U V.
    assert (E : (A / (A + B) * (1 - A / (A + B)) * ((U * A / (A + B) / (A / (A + B)) - ((U * A + V * B) / (A + B) - U * A / (A + B)) / (1 - A / (A + B))) *
      (U * A / (A + B) / (A / (A + B)) - ((U * A + V * B) / (A + B) - U * A / (A + B)) / (1 - A / (A + B)))) =
      A * B * ((V - U) * (V - U)) / ((A + B) * (A + B)))%R).
    { field. lra. }
    rewrite E. assert (Q : (0 < (A + B) * (A + B))%R) by (apply Rmult_lt_0_compat; lra).
    apply Rmult_le_reg_r with ((A + B) * (A + B))%R; auto. unfold Rdiv. rewrite Rmult_assoc, Rinv_l by lra. lra. }
  destruct (split_two c (w * h) (fun x _ => pixels_ge0 x) ltac:(lia) S5 u v Hu Hv Z0 SP) as (T & E & HT).
  rewrite (T_otsu_eq _ _ _ E). exact HT.
Qed.
End Picture.

Lemma gray_byte w h b x y : image (w * h * 4) b -> 0 <= x < w -> 0 <= y < h -> byte (gray_at b w x y).
Proof. intros. rewrite <- lum_gray_at; eapply lum_byte; eauto; now apply rm_bound. Qed.

Lemma otsu_best w h s p b : wf s -> dims_ok w h -> w * h < 4294967296 -> holds s p b -> image (w * h * 4) b ->
  exists t, best_split w h (gray_at b w) t /\
    returns_fresh s (otsu_threshold_rgba w h false p s) (fun b' => exact_image (w * h * 4) b' /\
      forall x y, 0 <= x < w -> 0 <= y < h -> opaque_gray b' w x y (single_map t (gray_at b w x y))) /\
    returns_fresh s (otsu_threshold_rgba w h true p s) (fun b' => exact_image (w * h * 4) b' /\
      forall x y, 0 <= x < w -> 0 <= y < h -> opaque_gray b' w x y (double_map t (gray_at b w x y))).
Proof.
  intros Hwf D Hn Hp Hi. exists (T_otsu (pixels_with w h (gray_at b w)) (w * h)). pose proof D as (D1 & D2 & D3 & D4 & _). unfold is_u32 in *.
  split; [apply best; auto; try lia; intros; eapply gray_byte; eauto|].
  split; [exact (otsu_ok w h s p b false Hwf D Hn Hp Hi)|exact (otsu_ok w h s p b true Hwf D Hn Hp Hi)].
Qed.

Lemma otsu_two w h s p b u v : wf s -> dims_ok w h -> w * h < 4294967296 -> holds s p b -> image (w * h * 4) b ->
  u < v -> (forall x y, 0 <= x < w -> 0 <= y < h -> gray_at b w x y = u \/ gray_at b w x y = v) ->
  (w * h) * (w * h) <= pixels_with w h (gray_at b w) u * pixels_with w h (gray_at b w) v * ((v - u) * (v - u)) ->
  returns_fresh s (otsu_threshold_rgba w h false p s) (fun b' => exact_image (w * h * 4) b' /\
    forall x y, 0 <= x < w -> 0 <= y < h -> opaque_gray b' w x y (if gray_at b w x y =? v then 255 else 0)).
Proof.
  intros Hwf D Hn Hp Hi Huv Htwo Hsep. pose proof D as (D1 & D2 & D3 & D4 & _). unfold is_u32 in *.
  assert (HB : forall x y, 0 <= x < w -> 0 <= y < h -> byte (gray_at b w x y)) by (intros; eapply gray_byte; eauto).
  assert (N1 : 1 <= w * h) by nia.
  assert (G : forall k, 0 < pixels_with w h (gray_at b w) k -> byte k).
  { intros k Hk. unfold pixels_with, count_px in Hk. apply count_pos in Hk; [|lia]. destruct Hk as (i & Hi' & E).
    destruct (rm_decomp w h i) as (Rx & Ry & _); auto; try lia. apply Z.eqb_eq in E. rewrite <- E. auto. }
  pose proof (pixels_ge0 w h (gray_at b w) ltac:(lia) ltac:(lia) Hn u) as Gu. pose proof (pixels_ge0 w h (gray_at b w) ltac:(lia) ltac:(lia) Hn v) as Gv.
  set (cu := pixels_with w h (gray_at b w) u) in *. set (cv := pixels_with w h (gray_at b w) v) in *.
  assert (P2 : 0 < cu * cv * ((v - u) * (v - u))) by nia.
  assert (Bu : byte u) by (apply G; destruct (Z.eq_dec cu 0) as [Q|]; [rewrite Q in P2|]; lia).
  assert (Bv : byte v) by (apply G; destruct (Z.eq_dec cv 0) as [Q|]; [rewrite Q, Z.mul_0_r in P2|]; lia). unfold byte in Bu, Bv.
  assert (T : u <= T_otsu (pixels_with w h (gray_at b w)) (w * h) < v) by (apply two; auto; lia).
  eapply returns_fresh_weaken; [|exact (otsu_ok w h s p b false Hwf D Hn Hp Hi)].
  intros b' [X H]. split; auto. intros x y Hx Hy. specialize (H x y Hx Hy). cbv zeta in H. unfold level in H.
  change (fun v0 => count_px w h (fun x0 y0 => gray_at b w x0 y0 =? v0)) with (pixels_with w h (gray_at b w)) in H.
  destruct (Htwo x y Hx Hy) as [E|E]; rewrite E in *.
  - replace (u =? v) with false by lia. replace (T_otsu _ _ <? u) with false in H by lia. exact H.
  - replace (v =? v) with true by lia. replace (T_otsu _ _ <? v) with true in H by lia. exact H.
Qed.

Lemma best_split_ext w h g g' t : 1 <= w -> 1 <= h -> (forall x y, 0 <= x < w -> 0 <= y < h -> g x y = g' x y) ->
  best_split w h g t -> best_split w h g' t.
Proof.
  intros Hw Hh E (Ht & H).
  assert (EP : forall v, pixels_with w h g v = pixels_with w h g' v).
  { intros v. unfold pixels_with, count_px. apply count_ext. intros i Hi.
    destruct (rm_decomp w h i) as (Rx & Ry & _); auto; try lia. now rewrite E. }
  assert (ES : forall k, sum_upto (pixels_with w h g) k = sum_upto (pixels_with w h g') k) by (intros; apply sum_ext; auto).
  assert (ET : forall k, sum_upto (fun v => v * pixels_with w h g v) k = sum_upto (fun v => v * pixels_with w h g' v) k).
  { intros. apply sum_ext. intros. now rewrite EP. }
  assert (EE : forall t', separation (pixels_with w h g) t' = separation (pixels_with w h g') t').
  { intros t'. unfold separation, sum_bright, sum_dark. now rewrite !ES, !ET. }
  split; auto. intros t' Ht'. rewrite <- !EE. auto.
Qed.

(** ** Pictures that are black and white already *)
Section Bw.
Context (w h : Z) (b : buf Z).
Hypothesis Hd : dims_ok w h.
Hypothesis Hn : w * h < 4294967296.
Hypothesis Hi : image (w * h * 4) b.
Hypothesis Hbw : forall x y, 0 <= x < w -> 0 <= y < h -> gray_at b w x y = 0 \/ gray_at b w x y = 255.

Lemma bw_none v : 0 < v < 255 -> pixels_with w h (gray_at b w) v = 0.
Proof.
  intros Hv. pose proof Hd as (_ & _ & D1 & D2 & _). unfold pixels_with, count_px. apply count_none; [nia|]. intros i Hi'.
  destruct (rm_decomp w h i) as (Rx & Ry & _); try lia. apply Z.eqb_neq. destruct (Hbw _ _ Rx Ry); lia.
Qed.
Lemma bw_threshold : let t := T_otsu (pixels_with w h (gray_at b w)) (w * h) in (t = 0 \/ t = 255) /\ (w * h <= 16777216 -> t = 0).
Proof.
  pose proof Hd as (D1 & D2 & D3 & D4 & _). unfold is_u32 in *. cbv zeta.
  assert (C : forall v, 0 <= v < 256 -> 0 <= pixels_with w h (gray_at b w) v) by (intros v _; apply pixels_ge0; lia).
  assert (N : 1 <= w * h < 4294967296) by nia.
  assert (S : sum_upto (pixels_with w h (gray_at b w)) 256 = w * h).
  { apply pixels_sum; try lia. intros; eapply gray_byte; eauto. }
  split.
  - destruct (bw_ends _ _ C N S bw_none) as (T & X & E & HT & _). rewrite (T_otsu_eq _ _ _ E). destruct HT as [?|[? _]]; auto.
  - intros Hsm. apply T_otsu_eq. apply bw_small; auto. exact bw_none.
Qed.
Lemma bw_double s p : wf s -> holds s p b ->
  returns_fresh s (otsu_threshold_rgba w h true p s) (fun b' => exact_image (w * h * 4) b' /\
    forall x y, 0 <= x < w -> 0 <= y < h -> opaque_gray b' w x y (gray_at b w x y)).
Proof.
  intros Hwf Hp. eapply returns_fresh_weaken; [|exact (otsu_ok w h s p b true Hwf Hd Hn Hp Hi)].
  intros b' [X H]. split; auto. intros x y Hx Hy. specialize (H x y Hx Hy). cbv zeta in H. unfold level in H.
  destruct bw_threshold as [[E|E] _]; unfold pixels_with in E; rewrite E in H; destruct (Hbw x y Hx Hy) as [G|G]; rewrite G in *; exact H.
Qed.
Lemma bw_single s p : w * h <= 16777216 -> wf s -> holds s p b ->
  returns_fresh s (otsu_threshold_rgba w h false p s) (fun b' => exact_image (w * h * 4) b' /\
    forall x y, 0 <= x < w -> 0 <= y < h -> opaque_gray b' w x y (gray_at b w x y)).
Proof.
  intros Hsm Hwf Hp. eapply returns_fresh_weaken; [|exact (otsu_ok w h s p b false Hwf Hd Hn Hp Hi)].
  intros b' [X H]. split; auto. intros x y Hx Hy. specialize (H x y Hx Hy). cbv zeta in H. unfold level in H.
  destruct bw_threshold as [_ E]. specialize (E Hsm). unfold pixels_with in E. rewrite E in H. destruct (Hbw x y Hx Hy) as [G|G]; rewrite G in *; exact H.
Qed.
Lemma bw_lost s p : T_otsu (pixels_with w h (gray_at b w)) (w * h) = 255 -> wf s -> holds s p b ->
  returns_fresh s (otsu_threshold_rgba w h false p s) (fun b' => exact_image (w * h * 4) b' /\
    forall x y, 0 <= x < w -> 0 <= y < h -> opaque_gray b' w x y 0).
Proof.
  intros E Hwf Hp. eapply returns_fresh_weaken; [|exact (otsu_ok w h s p b false Hwf Hd Hn Hp Hi)].
  intros b' [X H]. split; auto. intros x y Hx Hy. specialize (H x y Hx Hy). cbv zeta in H. unfold level in H.
  unfold pixels_with in E. rewrite E in H. destruct (Hbw x y Hx Hy) as [G|G]; rewrite G in *; exact H.
Qed.
End Bw.

(** One black pixel in a large white picture *)
Definition one_black : buf Z := bset (bset (bset (bconst (4001 * 4999 * 4) 255) 0 0) 1 0) 2 0.
Lemma one_black_image : image (4001 * 4999 * 4) one_black.
Proof.
  split; [vm_compute; discriminate|]. intros i Hi. unfold one_black. rewrite !bget_bset.
  destruct (i =? 2); [exists 0; split; [reflexivity|unfold byte; lia]|]. destruct (i =? 1); [exists 0; split; [reflexivity|unfold byte; lia]|].
  destruct (i =? 0); [exists 0; split; [reflexivity|unfold byte; lia]|]. exists 255. split; [reflexivity|unfold byte; lia].
Qed.
Lemma one_black_gray x y : 0 <= x < 4001 -> 0 <= y < 4999 ->
  gray_at one_black 4001 x y = if (x =? 0) && (y =? 0) then 0 else 255.
Proof.
  intros Hx Hy.
  assert (P : x <> 0 \/ y <> 0 -> forall c, 0 <= c < 4 -> pixv one_black 4001 4 x y c = 255).
  { intros Hxy c Hc. unfold pixv, pix, one_black. rewrite !bget_bset.
    replace ((y * 4001 + x) * 4 + c =? 2) with false by lia. replace ((y * 4001 + x) * 4 + c =? 1) with false by lia.
    replace ((y * 4001 + x) * 4 + c =? 0) with false by lia. reflexivity. }
  destruct (Z.eqb_spec x 0) as [Ex|Nx], (Z.eqb_spec y 0) as [Ey|Ny]; cbn [andb]; [subst; vm_compute; reflexivity|..];
    unfold gray_at; rewrite !P by lia; reflexivity.
Qed.
Lemma count_one n : 0 < n -> count (fun i => i =? 0) n = 1.
Proof.
  intros Hn. replace n with (n - 1 + 1) by lia. apply (Z_nat_ind (fun k => count (fun i => i =? 0) (k + 1) = 1)); [reflexivity| |lia].
  intros k Hk IH. rewrite count_succ, IH by lia. replace (k + 1 =? 0) with false by lia. reflexivity.
Qed.
Lemma one_counts (G : Z -> Z) n v : 0 < n -> (forall i, 0 <= i < n -> G i = if i =? 0 then 0 else 255) ->
  count (fun i => G i =? v) n = if v =? 0 then 1 else if v =? 255 then n - 1 else 0.
Proof.
  intros N HG. pose proof (count_one n N) as C1. destruct (Z.eqb_spec v 0) as [->|N0]; [|destruct (Z.eqb_spec v 255) as [->|N1]].
  - transitivity (count (fun i => i =? 0) n); [|exact C1]. apply count_ext. intros i Hi. rewrite HG by auto. destruct (i =? 0); reflexivity.
  - assert (C : count (fun _ => true) n = count (fun i => i =? 0) n + count (fun i => G i =? 255) n).
    { apply count_split; [lia|]. intros i Hi. rewrite HG by auto. destruct (i =? 0); reflexivity. }
    rewrite (count_all (fun _ => true) n) in C by (auto; lia). lia.
  - apply count_none; [lia|]. intros i Hi. rewrite HG by auto. apply Z.eqb_neq. destruct (i =? 0); lia.
Qed.
Definition one_count (v : Z) : Z := if v =? 0 then 1 else if v =? 255 then 4001 * 4999 - 1 else 0.
Lemma one_black_counts v : pixels_with 4001 4999 (gray_at one_black 4001) v = one_count v.
Proof.
  unfold pixels_with, count_px, one_count. apply (one_counts (fun i => gray_at one_black 4001 (i mod 4001) (i / 4001)) (4001 * 4999) v); [lia|].
  intros i Hi. rewrite one_black_gray; [|apply Z.mod_pos_bound; lia|split; [apply Z.div_pos; lia|apply Z.div_lt_upper_bound; lia]].
  pose proof (Z.div_mod i 4001 ltac:(lia)). pose proof (Z.mod_pos_bound i 4001 ltac:(lia)). pose proof (Z.div_pos i 4001 ltac:(lia) ltac:(lia)).
  destruct (Z.eqb_spec (i mod 4001) 0), (Z.eqb_spec (i / 4001) 0), (Z.eqb_spec i 0); cbn [andb]; lia.
Qed.
Lemma one_black_threshold : T_otsu (pixels_with 4001 4999 (gray_at one_black 4001)) (4001 * 4999) = 255.
Proof.
  rewrite (T_otsu_ext _ one_count); [|intros v _; apply one_black_counts]. apply T_otsu_eq. vm_compute. reflexivity.
Qed.
Lemma one_black_lost s p : wf s -> holds s p one_black ->
  returns_fresh s (otsu_threshold_rgba 4001 4999 false p s) (fun b' => exact_image (4001 * 4999 * 4) b' /\
    forall x y, 0 <= x < 4001 -> 0 <= y < 4999 -> opaque_gray b' 4001 x y 0).
Proof.
  intros Hwf Hp. assert (D : dims_ok 4001 4999) by (unfold dims_ok, is_u32, SIZE_MAX; lia).
  assert (B : forall x y, 0 <= x < 4001 -> 0 <= y < 4999 -> gray_at one_black 4001 x y = 0 \/ gray_at one_black 4001 x y = 255).
  { intros x y Hx Hy. rewrite one_black_gray by assumption. destruct ((x =? 0) && (y =? 0)); [left|right]; reflexivity. }
  exact (bw_lost 4001 4999 one_black D ltac:(lia) one_black_image B s p one_black_threshold Hwf Hp).
Qed.
