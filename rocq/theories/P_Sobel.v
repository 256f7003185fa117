(** * P_Sobel: proofs about edge detection *)
From Verif Require Import Base BaseLemmas F FLemmas FErr Heap Spec HeapLemmas Spec_Sobel M_Color M_Sobel P_Color.
From Coq Require Import Reals Psatz.
From Flocq Require Import Core BinarySingleNaN.
Local Open Scope Z_scope.

(** ** Coordinates and gradients *)
Lemma clamp_coord_ok x k n : 0 <= x < n -> n < 2147483648 -> -1 <= k <= 1 ->
  clamp_coord x k n = nearest_in n (x + k).
Proof.
  intros Hx Hn Hk. unfold clamp_coord, nearest_in.
  assert (E : s32 (u32 (x + k)) = x + k).
  { destruct (Z.eq_dec (x + k) (-1)) as [E|E]; [rewrite E; reflexivity|].
    rewrite u32_small by lia. apply s32_small. unfold INT_MIN, INT_MAX. lia. }
  rewrite E. cbv zeta.
  destruct (Z.ltb_spec (x + k) 0).
  - rewrite (u32_small 0) by lia. destruct (Z.leb_spec n 0); lia.
  - rewrite (u32_small (x + k)) by lia. destruct (Z.leb_spec n (x + k)).
    + rewrite u32_small by lia. rewrite s32_small by (unfold INT_MIN, INT_MAX; lia). lia.
    + lia.
Qed.

Ltac coefs :=
  repeat match goal with
  | |- context [sobel_x ?a ?b] => let v := eval vm_compute in (sobel_x a b) in change (sobel_x a b) with v
  | |- context [sobel_y ?a ?b] => let v := eval vm_compute in (sobel_y a b) in change (sobel_y a b) with v
  end.

Section Gray.
Context (w h : Z) (g : buf Z).
Hypothesis (Hw : 0 < w < 2147483648) (Hh : 0 < h < 2147483648) (Hg : image (w * h) g).
Let G x y := pixv g w 1 x y 0.

Lemma nearest_range n i : 0 < n -> 0 <= nearest_in n i < n.
Proof. unfold nearest_in. lia. Qed.

Lemma wh_small : w * h < 4611686018427387904.
Proof. nia. Qed.

Lemma G_byte x y : 0 <= x < w -> 0 <= y < h -> 0 <= G x y <= 255.
Proof.
  intros Hx Hy. unfold G, pixv, pix. replace ((y * w + x) * 1 + 0) with (y * w + x) by ring.
  destruct (proj2 Hg (y * w + x)) as (v & -> & B); [apply rm_bound; auto|]. unfold byte in B. lia.
Qed.

Lemma around_byte x y dx dy : 0 <= around w h G x y dx dy <= 255.
Proof. unfold around. apply G_byte; apply nearest_range; lia. Qed.

Lemma tap_ok x y ky kx gx gy : 0 <= x < w -> 0 <= y < h -> -1 <= kx <= 1 -> -1 <= ky <= 1 ->
  Z.abs gx <= 100000 -> Z.abs gy <= 100000 ->
  tap g w h x y ky kx (gx, gy) =
    Ok (gx + around w h G x y kx ky * sobel_x ky kx, gy + around w h G x y kx ky * sobel_y ky kx).
Proof.
  intros Hx Hy Hkx Hky Hgx Hgy. unfold tap. cbv zeta.
  rewrite !clamp_coord_ok by lia.
  pose proof (nearest_range w (x + kx) ltac:(lia)) as Rx. pose proof (nearest_range h (y + ky) ltac:(lia)) as Ry.
  pose proof (rm_bound w h _ _ Rx Ry) as RB. pose proof wh_small.
  rewrite (u64_small (nearest_in h (y + ky))) by lia. rewrite (u64_small (nearest_in w (x + kx))) by lia.
  rewrite (u64_small (_ * w)) by nia. rewrite u64_small by lia.
  rewrite (image_load (w * h)) by auto. cbn [bind].
  assert (E : val g (nearest_in h (y + ky) * w + nearest_in w (x + kx)) = around w h G x y kx ky).
  { unfold around, G, pixv, pix, val.
    replace ((nearest_in h (y + ky) * w + nearest_in w (x + kx)) * 1 + 0)
      with (nearest_in h (y + ky) * w + nearest_in w (x + kx)) by ring. reflexivity. }
  rewrite E. pose proof (around_byte x y kx ky) as B. clear E RB.
  assert (SX : -2 <= sobel_x ky kx <= 2 /\ -2 <= sobel_y ky kx <= 2).
  { assert (K : (kx = -1 \/ kx = 0 \/ kx = 1) /\ (ky = -1 \/ ky = 0 \/ ky = 1)) by lia.
    destruct K as [K1 K2]. destruct K1 as [K1|[K1|K1]], K2 as [K2|[K2|K2]]; subst; cbv; split; split; discriminate. }
  generalize dependent (around w h G x y kx ky). intros a B.
  rewrite (ck32_ok (a * sobel_x ky kx)) by (unfold INT_MIN, INT_MAX; nia). cbn [bind].
  rewrite (ck32_ok (gx + _)) by (unfold INT_MIN, INT_MAX; nia). cbn [bind].
  rewrite (ck32_ok (a * sobel_y ky kx)) by (unfold INT_MIN, INT_MAX; nia). cbn [bind].
  rewrite (ck32_ok (gy + _)) by (unfold INT_MIN, INT_MAX; nia). reflexivity.
Qed.

Lemma gradient_ok x y : 0 <= x < w -> 0 <= y < h ->
  gradient g w h x y = Ok (grad_x w h G x y, grad_y w h G x y).
Proof.
  intros Hx Hy. unfold gradient, for_.
  change (Z.to_nat (2 - -1)) with 3%nat.
  cbn [iter_n].
  pose proof (around_byte x y (-1) (-1)); pose proof (around_byte x y 0 (-1)); pose proof (around_byte x y 1 (-1)).
  pose proof (around_byte x y (-1) 0); pose proof (around_byte x y 0 0); pose proof (around_byte x y 1 0).
  pose proof (around_byte x y (-1) 1); pose proof (around_byte x y 0 1); pose proof (around_byte x y 1 1).
  change (-1 + 1) with 0. change (0 + 1) with 1.
  do 9 (rewrite tap_ok by (try assumption; lia); coefs; cbn [bind]).
  unfold grad_x, grad_y.
  f_equal. f_equal; ring.
Qed.

Lemma grad_bound x y : Z.abs (grad_x w h G x y) <= 1020 /\ Z.abs (grad_y w h G x y) <= 1020.
Proof.
  pose proof (around_byte x y (-1) (-1)); pose proof (around_byte x y 0 (-1)); pose proof (around_byte x y 1 (-1)).
  pose proof (around_byte x y (-1) 0); pose proof (around_byte x y 1 0).
  pose proof (around_byte x y (-1) 1); pose proof (around_byte x y 0 1); pose proof (around_byte x y 1 1).
  unfold grad_x, grad_y. lia.
Qed.

Lemma strength_bound x y : 0 <= strength2 w h G x y <= 2080800.
Proof. unfold strength2. pose proof (grad_bound x y). nia. Qed.
End Gray.

(** ** Magnitudes as real numbers *)
Definition mg (v : Z) : R := rd (sqrt (IZR v)).

Lemma magnitude_R gx gy : Z.abs gx <= 1020 -> Z.abs gy <= 1020 ->
  isd (magnitude gx gy) (mg (gx * gx + gy * gy)).
Proof.
  intros Hx Hy. unfold magnitude, mg.
  assert (E : forall z, Z.abs z <= 1020 -> isd (dmul (d_of_Z z) (d_of_Z z)) (IZR (z * z))).
  { intros z Hz. rewrite <- (rd_IZR (z * z)) by nia. rewrite mult_IZR. apply dmul_R; try (apply d_of_Z_exact; lia).
    rewrite <- mult_IZR. apply bpow_big. nia. }
  apply dsqrt_R.
  - rewrite <- (rd_IZR (gx * gx + gy * gy)) by nia. rewrite plus_IZR. apply dadd_R; auto.
    rewrite <- plus_IZR. apply bpow_big. nia.
  - apply IZR_le. nia.
Qed.

Lemma sqrt_range v : 0 <= v <= 2080800 -> (0 <= sqrt (IZR v) <= 1443)%R.
Proof.
  intros Hv. split; [apply sqrt_pos|]. replace 1443%R with (sqrt (1443 * 1443)) by (apply sqrt_square; lra).
  apply sqrt_le_1_alt. rewrite <- mult_IZR. apply IZR_le. lia.
Qed.

Definition e42 : R := (1 / 4398046511104)%R.

Lemma mg_err v : 0 <= v <= 2080800 -> (sqrt (IZR v) - e42 <= mg v <= sqrt (IZR v) + e42)%R.
Proof.
  intros Hv. pose proof (sqrt_range v Hv). unfold mg, e42.
  assert (A : (Rabs (sqrt (IZR v)) <= 2048)%R) by (rewrite Rabs_pos_eq; lra).
  pose proof (rd_near (sqrt (IZR v)) 11 2048 ltac:(lia) eq_refl A) as N.
  change (bpow radix2 (-53)) with (/ 9007199254740992)%R in N. lra.
Qed.

(** Square roots of different integers differ noticeably. *)
Lemma sqrt_gap a b : 0 <= a < b -> b <= 2080800 -> (sqrt (IZR a) + 1 / 3000 <= sqrt (IZR b))%R.
Proof.
  intros Hab Hb. pose proof (sqrt_range a ltac:(lia)) as Ra. pose proof (sqrt_range b ltac:(lia)) as Rb.
  assert (Sa : (sqrt (IZR a) * sqrt (IZR a) = IZR a)%R) by (apply sqrt_sqrt; apply IZR_le; lia).
  assert (Sb : (sqrt (IZR b) * sqrt (IZR b) = IZR b)%R) by (apply sqrt_sqrt; apply IZR_le; lia).
  assert (D : (IZR a + 1 <= IZR b)%R) by (rewrite <- plus_IZR; apply IZR_le; lia).
  generalize dependent (sqrt (IZR a)). generalize dependent (sqrt (IZR b)). intros sb Rb Sb sa Ra Sa.
  destruct (Rle_or_lt (sa + 1 / 3000) sb) as [L|L]; auto. exfalso.
  assert (sb * sb < (sa + 1/3000) * (sa + 1/3000))%R by nra. nra.
Qed.

Lemma mg_lt a b : 0 <= a < b -> b <= 2080800 -> (mg a + 1 / 4000 < mg b)%R.
Proof.
  intros Hab Hb. pose proof (sqrt_gap a b Hab Hb). pose proof (mg_err a ltac:(lia)). pose proof (mg_err b ltac:(lia)).
  unfold e42 in *. lra.
Qed.
Lemma mg_le a b : 0 <= a <= b -> (mg a <= mg b)%R.
Proof. intros. apply rd_mono. apply sqrt_le_1_alt. apply IZR_le. lia. Qed.
Lemma mg_0 : mg 0 = 0%R.
Proof. unfold mg. rewrite sqrt_0. apply rd_0. Qed.
Lemma mg_range v : 0 <= v <= 2080800 -> (0 <= mg v <= 1443)%R.
Proof.
  intros H. split; [rewrite <- mg_0; apply mg_le; lia|].
  unfold mg. apply rd_le_Z; [|lia]. apply sqrt_range; auto.
Qed.

Lemma dlt_inf x a : isd x a -> dlt x dinf = true.
Proof.
  intros [Fx _]. unfold dlt, dinf. destruct x as [[]|[]| |[] m e E]; try discriminate; reflexivity.
Qed.

Lemma to_i32_R x a : isd x a -> (-1 < a < 256)%R -> to_i32 x = Ok (Ztrunc a).
Proof.
  intros H R. unfold to_i32. apply (cast_int_R INT_MIN INT_MAX x a H); unfold INT_MIN, INT_MAX; try lia; lra.
Qed.

(** ** First pass *)
Section Passes.
Context (w h : Z) (g : buf Z).
Hypothesis (Hw : 0 < w < 2147483648) (Hh : 0 < h < 2147483648) (Hg : image (w * h) g).
Let G x y := pixv g w 1 x y 0.
Let S2 (i : Z) := strength2 w h G (i mod w) (i / w).

Lemma S2_range i : 0 <= S2 i <= 2080800.
Proof. apply strength_bound; auto. Qed.

Definition seen (k : Z) (s : buf f64 * f64 * f64) : Prop :=
  let '(mags, mn, mx) := s in
  blen mags = w * h /\
  (forall j, 0 <= j < k -> exists m, bget mags j = Some m /\ isd m (mg (S2 j))) /\
  (k = 0 -> mn = dinf) /\
  (0 < k -> exists lo, isd mn (mg lo) /\ (exists j, 0 <= j < k /\ S2 j = lo) /\ forall j, 0 <= j < k -> lo <= S2 j) /\
  (exists hi, isd mx (mg hi) /\ (hi = 0 \/ exists j, 0 <= j < k /\ S2 j = hi) /\ forall j, 0 <= j < k -> S2 j <= hi).

Lemma first_step k m mags mn mx : 0 <= k < w * h -> isd m (mg (S2 k)) -> seen k (mags, mn, mx) ->
  seen (k + 1) (bset mags k m, if dlt m mn then m else mn, if dlt mx m then m else mx).
Proof.
  intros Hk Hm (L & V & N0 & N1 & (hi & Hi1 & Hi2 & Hi3)).
  pose proof (S2_range k) as Rk.
  repeat split.
  - rewrite blen_bset. exact L.
  - intros j Hj. rewrite bget_bset. destruct (Z.eqb_spec j k) as [E|E]; [subst; eauto|]. apply V. lia.
  - lia.
  - intros _. destruct (Z.eq_dec k 0) as [E|E].
    + rewrite (N0 E). rewrite (dlt_inf _ _ Hm). exists (S2 k). repeat split; try apply Hm.
      * exists k. lia.
      * intros j Hj. replace j with k by lia. lia.
    + destruct N1 as (lo & Lo1 & (j0 & Hj0 & Ej0) & Lo3); [lia|].
      assert (Rlo : 0 <= lo <= 2080800) by (rewrite <- Ej0; apply S2_range).
      rewrite (dlt_R _ _ _ _ Hm Lo1). destruct (Rlt_bool_spec (mg (S2 k)) (mg lo)) as [C|C].
      * exists (S2 k). split; [exact Hm|]. split; [exists k; lia|].
        assert (S2 k < lo).
        { destruct (Z_lt_le_dec (S2 k) lo); auto. pose proof (mg_le lo (S2 k) ltac:(lia)). lra. }
        intros j Hj. destruct (Z.eq_dec j k) as [->|]; [lia|]. specialize (Lo3 j ltac:(lia)). lia.
      * exists lo. split; [exact Lo1|]. split; [exists j0; lia|].
        assert (lo <= S2 k).
        { destruct (Z_lt_le_dec (S2 k) lo); auto. pose proof (mg_lt (S2 k) lo ltac:(lia) ltac:(lia)). lra. }
        intros j Hj. destruct (Z.eq_dec j k) as [->|]; [lia|]. apply Lo3; lia.
  - assert (Rhi : 0 <= hi <= 2080800).
    { destruct Hi2 as [->|(j & _ & <-)]; [lia|apply S2_range]. }
    rewrite (dlt_R _ _ _ _ Hi1 Hm). destruct (Rlt_bool_spec (mg hi) (mg (S2 k))) as [C|C].
    + exists (S2 k). split; [exact Hm|]. split; [right; exists k; lia|].
      assert (hi < S2 k).
      { destruct (Z_lt_le_dec hi (S2 k)); auto. pose proof (mg_le (S2 k) hi ltac:(lia)). lra. }
      intros j Hj. destruct (Z.eq_dec j k) as [->|]; [lia|]. specialize (Hi3 j ltac:(lia)). lia.
    + exists hi. split; [exact Hi1|].
      assert (S2 k <= hi).
      { destruct (Z_lt_le_dec hi (S2 k)); auto. pose proof (mg_lt hi (S2 k) ltac:(lia) ltac:(lia)). lra. }
      split; [destruct Hi2 as [E|(j & Hj & E)]; [left; auto|right; exists j; split; [lia|auto]]|].
      intros j Hj. destruct (Z.eq_dec j k) as [->|]; [lia|]. apply Hi3; lia.
Qed.

Lemma S2_at x y : 0 <= x < w -> S2 (y * w + x) = strength2 w h G x y.
Proof.
  intros Hx. unfold S2. replace ((y * w + x) mod w) with x; [replace ((y * w + x) / w) with y; auto|].
  - rewrite Z.div_add_l by lia. rewrite Z.div_small by lia. lia.
  - rewrite Z.add_comm, Z.mod_add by lia. rewrite Z.mod_small by lia. reflexivity.
Qed.

Lemma first_pass_ok : exists s, first_pass g w h (bnew (w * h)) = Ok s /\ seen (w * h) s.
Proof.
  pose proof (wh_small w h Hw Hh) as WH. unfold first_pass.
  match goal with |- exists s, for_ 0 h ?body ?s0 = _ /\ _ =>
    destruct (for_inv (fun y s => seen (y * w) s) 0 h body s0) as [s' [E HI]] end.
  - lia.
  - unfold seen. split; [reflexivity|]. split; [intros; lia|]. split; [reflexivity|]. split; [intros; lia|].
    exists 0. rewrite mg_0. split; [apply isd_d0|]. split; [left; auto|]. intros; lia.
  - intros y s Hy HI.
    match goal with |- exists s', for_ 0 w ?body ?s0 = _ /\ _ =>
      destruct (for_inv (fun x s => seen (y * w + x) s) 0 w body s0) as [s' [E HI']] end.
    + lia.
    + replace (y * w + 0) with (y * w) by ring. auto.
    + intros x [[mags mn] mx] Hx HS. pose proof (rm_bound w h x y Hx Hy) as B.
      rewrite (gradient_ok w h g) by auto. cbn [bind fst snd].
      rewrite (u64_small (y * w)) by nia. rewrite u64_small by lia.
      rewrite store_ok by (destruct HS as [L _]; lia). cbn [bind].
      eexists. split; [reflexivity|]. replace (y * w + (x + 1)) with (y * w + x + 1) by ring.
      apply first_step; auto. rewrite S2_at by auto. apply magnitude_R; apply (grad_bound w h g Hw Hh Hg).
    + exists s'. split; auto. replace ((y + 1) * w) with (y * w + w) by ring. auto.
  - exists s'. split; auto. replace (w * h) with (h * w) by ring. auto.
Qed.

(** ** Second pass *)
Definition fin (lo hi v : Z) : Z :=
  if lo =? hi then 0 else Ztrunc (rd (rd (rd (mg v - mg lo) / rd (mg hi - mg lo)) * 255)).

Lemma range_pos lo hi : 0 <= lo < hi -> hi <= 2080800 -> (1 / 5000 <= rd (mg hi - mg lo) <= 1443)%R.
Proof.
  intros Hl Hh'. pose proof (mg_lt lo hi Hl Hh') as D. pose proof (mg_range lo ltac:(lia)). pose proof (mg_range hi ltac:(lia)).
  split; [|apply rd_le_Z; [lra|lia]].
  apply Rle_trans with (rd (1 / 4000)); [|apply rd_mono; lra].
  pose proof (rd_e0 (1 / 4000)) as E0. rewrite Rabs_pos_eq in E0 by lra. specialize (E0 ltac:(lra)). lra.
Qed.

Lemma quot_bounds a r : (0 <= a <= r)%R -> (1 / 5000 <= r <= 1443)%R ->
  (0 <= a / r <= 1)%R.
Proof.
  intros Ha Hr. split.
  - apply Rmult_le_pos; [lra|]. apply Rlt_le, Rinv_0_lt_compat. lra.
  - apply Rmult_le_reg_r with r; [lra|]. unfold Rdiv. rewrite Rmult_assoc, Rinv_l by lra. lra.
Qed.

Lemma final_ok m mn mx v lo hi : 0 <= lo <= v -> v <= hi <= 2080800 ->
  isd m (mg v) -> isd mn (mg lo) -> isd mx (mg hi) ->
  final_magnitude m mn (mag_range mn mx) = Ok (fin lo hi v) /\ 0 <= fin lo hi v <= 255.
Proof.
  intros Hl Hv Hm Hn Hx.
  pose proof (mg_range lo ltac:(lia)) as Rl. pose proof (mg_range hi ltac:(lia)) as Rh. pose proof (mg_range v ltac:(lia)) as Rv.
  pose proof (mg_le lo v ltac:(lia)) as Lv. pose proof (mg_le v hi ltac:(lia)) as Lh.
  assert (B : forall r, (Rabs r <= 1443)%R -> (Rabs r <= bpow radix2 1000)%R) by (intros r Hr; apply big31; lra).
  assert (E1 : isd (dsub mx mn) (rd (mg hi - mg lo))).
  { apply dsub_R; auto. apply B. rewrite Rabs_pos_eq; lra. }
  assert (E2 : isd (dsub m mn) (rd (mg v - mg lo))).
  { apply dsub_R; auto. apply B. rewrite Rabs_pos_eq; lra. }
  assert (P2 : (0 <= rd (mg v - mg lo) <= rd (mg hi - mg lo))%R).
  { split; [rewrite <- rd_0|]; apply rd_mono; lra. }
  unfold mag_range. cbv zeta. rewrite (deq_R _ _ _ _ E1 isd_d0). unfold fin.
  destruct (Z.eqb_spec lo hi) as [E|E].
  - subst hi. assert (v = lo) by lia. subst v. rewrite Rminus_diag_eq in * by reflexivity. rewrite rd_0 in *.
    rewrite Req_bool_true by reflexivity. unfold final_magnitude.
    assert (E3 : isd (dmul (ddiv (dsub m mn) F.d1) (d_of_Z 255)) 0).
    { assert (Q : isd (ddiv (dsub m mn) F.d1) 0).
      { pose proof (ddiv_R _ _ _ _ E2 isd_d1 ltac:(lra)) as D. replace (0 / 1)%R with 0%R in D by field. rewrite rd_0 in D.
        apply D. apply B. rewrite Rabs_R0. lra. }
      pose proof (dmul_R _ _ _ _ Q (d_of_Z_exact 255 ltac:(lia))) as D. rewrite Rmult_0_l, rd_0 in D. apply D.
      apply B. rewrite Rabs_R0. lra. }
    rewrite (to_i32_R _ _ E3) by lra.
    change (Ztrunc 0) with (Ztrunc (IZR 0)). rewrite Ztrunc_IZR. split; [reflexivity|lia].
  - pose proof (range_pos lo hi ltac:(lia) ltac:(lia)) as RP.
    rewrite Req_bool_false by lra. unfold final_magnitude.
    pose proof (quot_bounds _ _ P2 RP) as Q.
    assert (Q' : (0 <= rd (rd (mg v - mg lo) / rd (mg hi - mg lo)) <= 1)%R).
    { split; [apply (rd_ge_Z _ 0)|apply (rd_le_Z _ 1)]; try lia; lra. }
    assert (E3 : isd (ddiv (dsub m mn) (dsub mx mn)) (rd (rd (mg v - mg lo) / rd (mg hi - mg lo)))).
    { apply ddiv_R; auto; [lra|]. apply B. rewrite Rabs_pos_eq; lra. }
    pose proof (dmul_R _ _ _ _ E3 (d_of_Z_exact 255 ltac:(lia))) as E4.
    specialize (E4 ltac:(apply B; rewrite Rabs_pos_eq; lra)).
    set (q := rd (rd (rd (mg v - mg lo) / rd (mg hi - mg lo)) * 255)) in *.
    assert (Rq : (0 <= q <= 255)%R).
    { unfold q. split; [apply (rd_ge_Z _ 0)|apply (rd_le_Z _ 255)]; try lia; lra. }
    assert (T : 0 <= Ztrunc q <= 255).
    { clearbody q. apply (trunc_range q 0 255); try lia; cbn; lra. }
    rewrite (to_i32_R _ _ E4) by lra.
    cbn [bind]. replace (Ztrunc q <? 0) with false by lia. cbv zeta iota. replace (255 <? Ztrunc q) with false by lia.
    split; [|exact T]. f_equal. apply u8_small. lia.
Qed.

Lemma fin_lo lo hi : fin lo hi lo = 0.
Proof.
  unfold fin. destruct (lo =? hi); auto. rewrite Rminus_diag_eq by reflexivity. rewrite rd_0.
  unfold Rdiv. rewrite Rmult_0_l, rd_0, Rmult_0_l, rd_0. apply (Ztrunc_IZR 0).
Qed.
Lemma fin_hi lo hi : 0 <= lo < hi -> hi <= 2080800 -> fin lo hi hi = 255.
Proof.
  intros H1 H2. unfold fin. replace (lo =? hi) with false by lia. pose proof (range_pos lo hi H1 H2).
  unfold Rdiv. rewrite Rinv_r by lra. rewrite (rd_IZR 1) by lia. rewrite <- mult_IZR. rewrite rd_IZR by lia.
  apply Ztrunc_IZR.
Qed.
Lemma fin_mono lo hi v v' : 0 <= lo <= v -> v <= v' -> v' <= hi <= 2080800 -> fin lo hi v <= fin lo hi v'.
Proof.
  intros H1 H2 H3. unfold fin. destruct (Z.eqb_spec lo hi); [lia|]. pose proof (range_pos lo hi ltac:(lia) ltac:(lia)).
  apply Ztrunc_le. apply rd_mono. apply Rmult_le_compat_r; [lra|]. apply rd_mono.
  apply Rmult_le_compat_r; [apply Rlt_le, Rinv_0_lt_compat; lra|]. apply rd_mono.
  pose proof (mg_le v v' ltac:(lia)). lra.
Qed.

Lemma quot_near A D a r t t' : (0 <= t <= 1)%R -> A = (t * D)%R -> a = (t' * r)%R ->
  (A - 3 * e42 <= a <= A + 3 * e42)%R -> (D - 3 * e42 <= r <= D + 3 * e42)%R -> (1 / 5000 <= r)%R ->
  (t - 1 / 1000000 <= t' <= t + 1 / 1000000)%R.
Proof.
  intros Ht EA Ea Ha Hr R0.
  assert (H1 : (-3 * e42 <= t * (D - r) <= 3 * e42)%R).
  { assert (E0 : (0 < e42)%R) by (unfold e42; lra). clear - Ht Hr E0. set (d := (D - r)%R).
    assert (-3 * e42 <= d <= 3 * e42)%R by (unfold d; lra). clearbody d. split; nra. }
  assert (Hd : (-6 * e42 <= (t' - t) * r <= 6 * e42)%R).
  { replace ((t' - t) * r)%R with (a - A + t * (D - r))%R by (rewrite Ea, EA; ring). lra. }
  unfold e42 in Hd. clear - Hd R0. split.
  - apply Rnot_lt_le. intros C. assert ((t - t') * r >= 1 / 1000000 * (1 / 5000))%R; [|lra].
    apply Rle_ge. apply Rmult_le_compat; lra.
  - apply Rnot_lt_le. intros C. assert ((t' - t) * r >= 1 / 1000000 * (1 / 5000))%R; [|lra].
    apply Rle_ge. apply Rmult_le_compat; lra.
Qed.

Lemma fin_near lo hi v : 0 <= lo <= v -> v <= hi <= 2080800 -> lo < hi ->
  (scaled lo hi v - 1 - 1 / 1000 <= IZR (fin lo hi v) <= scaled lo hi v + 1 / 1000)%R.
Proof.
  intros Hl Hv Hlh. unfold fin. replace (lo =? hi) with false by lia.
  pose proof (range_pos lo hi ltac:(lia) ltac:(lia)) as RP.
  pose proof (mg_err lo ltac:(lia)) as Xl. pose proof (mg_err hi ltac:(lia)) as Xh. pose proof (mg_err v ltac:(lia)) as Xv.
  pose proof (mg_range lo ltac:(lia)) as Rl. pose proof (mg_range hi ltac:(lia)) as Rh. pose proof (mg_range v ltac:(lia)) as Rv.
  pose proof (mg_le lo v ltac:(lia)) as Lv. pose proof (mg_le v hi ltac:(lia)) as Lh.
  pose proof (sqrt_gap lo hi ltac:(lia) ltac:(lia)) as SG.
  assert (SV : (sqrt (IZR lo) <= sqrt (IZR v) <= sqrt (IZR hi))%R) by (split; apply sqrt_le_1_alt; apply IZR_le; lia).
  assert (P2 : (0 <= rd (mg v - mg lo) <= rd (mg hi - mg lo))%R).
  { split; [rewrite <- rd_0|]; apply rd_mono; lra. }
  pose proof (quot_bounds _ _ P2 RP) as Q.
  assert (Er : forall r, (0 <= r <= 1443)%R -> (r - e42 <= rd r <= r + e42)%R).
  { intros r Hr. assert (A : (Rabs r <= 2048)%R) by (rewrite Rabs_pos_eq; lra).
    pose proof (rd_near r 11 2048 ltac:(lia) eq_refl A) as N.
    change (bpow radix2 (-53)) with (/ 9007199254740992)%R in N. unfold e42. lra. }
  pose proof (Er (mg v - mg lo)%R ltac:(lra)) as Ea. pose proof (Er (mg hi - mg lo)%R ltac:(lra)) as Eb.
  set (a := rd (mg v - mg lo)) in *. set (r := rd (mg hi - mg lo)) in *.
  pose proof (Er (a / r)%R ltac:(lra)) as Eq. set (q := rd (a / r)) in *.
  assert (Rq : (0 <= q <= 1)%R). { unfold q. split; [apply (rd_ge_Z _ 0)|apply (rd_le_Z _ 1)]; try lia; lra. }
  pose proof (Er (q * 255)%R ltac:(lra)) as Ep. set (p := rd (q * 255)) in *.
  assert (Rp : (0 <= p)%R). { unfold p. apply rd_ge_Z; [lra|lia]. }
  assert (T : (p - 1 <= IZR (Ztrunc p) <= p)%R).
  { rewrite Ztrunc_floor by lra. pose proof (Zfloor_lb p). pose proof (Zfloor_ub p). lra. }
  unfold scaled.
  set (A := (sqrt (IZR v) - sqrt (IZR lo))%R) in *. set (D := (sqrt (IZR hi) - sqrt (IZR lo))%R) in *.
  assert (HA : (0 <= A <= D)%R) by (unfold A, D; lra).
  assert (HD : (1 / 3000 <= D)%R) by (unfold D; lra).
  assert (Ha : (A - 3 * e42 <= a <= A + 3 * e42)%R) by (unfold A; lra).
  assert (Hr : (D - 3 * e42 <= r <= D + 3 * e42)%R) by (unfold D; lra).
  assert (N : (A / D - 1 / 1000000 <= a / r <= A / D + 1 / 1000000)%R).
  { assert (AD : (0 <= A / D <= 1)%R).
    { split; [apply Rmult_le_pos; [lra|apply Rlt_le, Rinv_0_lt_compat; lra]|].
      apply Rmult_le_reg_r with D; [lra|]. unfold Rdiv. rewrite Rmult_assoc, Rinv_l by lra. lra. }
    assert (Z1 : (A = A / D * D)%R) by (field; lra). assert (Z2 : (a = a / r * r)%R) by (field; lra).
    set (t := (A / D)%R) in *. set (t' := (a / r)%R) in *. clearbody t t'.
    apply (quot_near A D a r t t'); auto; lra. }
  unfold e42 in *. lra.
Qed.

Lemma second_pass_ok mags mn mx lo hi :
  (forall j, 0 <= j < w * h -> exists m, bget mags j = Some m /\ isd m (mg (S2 j))) ->
  blen mags = w * h ->
  isd mn (mg lo) -> isd mx (mg hi) -> 0 <= lo -> hi <= 2080800 -> (forall j, 0 <= j < w * h -> lo <= S2 j <= hi) ->
  exists b', second_pass w h mags mn (mag_range mn mx) (bnew (w * h)) = Ok b' /\ blen b' = w * h /\
    forall x y, 0 <= x < w -> 0 <= y < h ->
      bget b' (y * w + x) = Some (fin lo hi (strength2 w h G x y)) /\ byte (fin lo hi (strength2 w h G x y)).
Proof.
  intros V L Hn Hx H0 H1 HS. pose proof (wh_small w h Hw Hh) as WH. unfold second_pass.
  destruct (loop2d_writes (w * h) 1 w h (fun x y => y * w + x)
    (fun x y c => Some (fin lo hi (strength2 w h G x y)))
    (fun x y out => m <- load mags (u64 (u64 (y * w) + x)) ;;
      f <- final_magnitude m mn (mag_range mn mx) ;; store out (u64 (u64 (y * w) + x)) f) (bnew (w * h)))
    as (b' & E & Lb & Vb & _); try lia.
  - reflexivity.
  - intros x y Hx' Hy b Hb. pose proof (rm_bound w h x y Hx' Hy) as B.
    rewrite (u64_small (y * w)) by nia. rewrite u64_small by lia.
    destruct (V _ B) as (m & Em & Dm). 
    rewrite load_ok with (v := m) by (auto; lia). cbn [bind].
    rewrite S2_at in Dm by auto. pose proof (HS _ B) as HB. rewrite S2_at in HB by auto.
    rewrite (proj1 (final_ok m mn mx (strength2 w h G x y) lo hi ltac:(lia) ltac:(lia) Dm Hn Hx)). cbn [bind].
    rewrite store_ok by lia. eexists. split; [reflexivity|]. split; [rewrite blen_bset; auto|].
    intros j. rewrite bget_bset.
    destruct (Z.eqb_spec j (y * w + x)); destruct (Z.leb_spec (y * w + x) j); destruct (Z.ltb_spec j (y * w + x + 1));
      cbn [andb]; try lia; auto.
  - intros x y x' y' A1 A2 A3 A4 A5. pose proof (rm_lt w x y x' y' A1 A3 A5). lia.
  - exists b'. split; [exact E|]. split; auto. intros x y Hx' Hy. specialize (Vb x y 0 Hx' Hy ltac:(lia)).
    rewrite Z.add_0_r in Vb. split; auto.
    pose proof (rm_bound w h x y Hx' Hy) as B. destruct (V _ B) as (m & _ & Dm). rewrite S2_at in Dm by auto.
    pose proof (HS _ B) as HB. rewrite S2_at in HB by auto. unfold byte.
    pose proof (proj2 (final_ok m mn mx (strength2 w h G x y) lo hi ltac:(lia) ltac:(lia) Dm Hn Hx)). lia.
Qed.

(** The values are a function of the strength. *)
Definition edges_exact (G : Z -> Z -> Z) (b' : buf Z) : Prop := edges_of w h G b' /\
  exists lo hi, extremes w h G lo hi /\ forall x y, 0 <= x < w -> 0 <= y < h -> pix b' w 1 x y 0 = Some (fin lo hi (strength2 w h G x y)).

Lemma passes_ok : exists mags mn mx b',
  first_pass g w h (bnew (w * h)) = Ok (mags, mn, mx) /\
  second_pass w h mags mn (mag_range mn mx) (bnew (w * h)) = Ok b' /\ edges_exact G b'.
Proof.
  destruct first_pass_ok as ([[mags mn] mx] & E1 & (L & V & _ & N1 & (hi & Hi1 & Hi2 & Hi3))).
  destruct N1 as (lo & Lo1 & (j0 & Hj0 & Ej0) & Lo3); [nia|].
  pose proof (S2_range j0) as Rj0. pose proof (Hi3 j0 Hj0) as Hj1.
  assert (Hi2' : exists j, 0 <= j < w * h /\ S2 j = hi).
  { destruct Hi2 as [E|E]; auto. exists j0. split; auto. lia. }
  destruct Hi2' as (j1 & Hj1' & Ej1). pose proof (S2_range j1) as Rj1.
  destruct (second_pass_ok mags mn mx lo hi) as (b' & E2 & Lb & Vb); auto; try lia.
  exists mags, mn, mx, b'. split; auto. split; auto.
  assert (IN : forall x y, 0 <= x < w -> 0 <= y < h -> lo <= strength2 w h G x y <= hi).
  { intros x y Hx Hy. rewrite <- S2_at by auto. pose proof (rm_bound w h x y Hx Hy) as B. auto. }
  assert (PV : forall x y, 0 <= x < w -> 0 <= y < h -> pix b' w 1 x y 0 = Some (fin lo hi (strength2 w h G x y))).
  { intros x y Hx Hy. unfold pix. replace ((y * w + x) * 1 + 0) with (y * w + x) by ring. apply Vb; auto. }
  assert (EX : extremes w h G lo hi).
  { unfold extremes. split; [|split; auto].
    - destruct (rm_decomp w h j0) as (A & B & C); auto; try lia. exists (j0 mod w), (j0 / w). auto.
    - destruct (rm_decomp w h j1) as (A & B & C); auto; try lia. exists (j1 mod w), (j1 / w). auto. }
  split; [|exists lo, hi; auto]. split.
  - split; auto. split; [lia|]. intros i Hi'. destruct (rm_decomp w h i) as (A & B & C); auto; try lia.
    rewrite C. eexists. apply Vb; auto.
  - exists lo, hi. split; [|split].
    + exact EX.
    + intros x y Hx Hy. specialize (IN x y Hx Hy). exists (fin lo hi (strength2 w h G x y)). split; auto.
      split; [|split; [|split]].
      * intros ->. unfold fin. rewrite Z.eqb_refl. reflexivity.
      * intros ->. apply fin_lo.
      * intros Hlt ->. apply fin_hi; lia.
      * intros Hlt. apply fin_near; lia.
    + intros x y x' y' Hx Hy Hx' Hy' LE. pose proof (IN x y Hx Hy). pose proof (IN x' y' Hx' Hy').
      unfold pixv. rewrite !PV by auto. apply fin_mono; lia.
Qed.
End Passes.

(** ** Heap *)
Ltac hgetd := erewrite bindM_Ok; [| unfold get_dbl, bindM, get_obj; mem_lookup ]; cbv beta.

Lemma put_dbl_ok s i o b : mem s i = Some o ->
  put_obj (Ptr i) (ODbl b) s = Ok (tt, mkst (upd (mem s) i (Some (ODbl b))) (nxt s) (orc s) (tick s)).
Proof. unfold put_obj; intros ->; reflexivity. Qed.
Lemma get_dbl_ok s i b : mem s i = Some (ODbl b) -> get_dbl (Ptr i) s = Ok (b, s).
Proof. unfold get_dbl, bindM, get_obj; intros ->; reflexivity. Qed.

Ltac later_from W O := split; [wf_tac W | cbn [mem nxt orc tick]; split; [exact O | split; lia]].

Lemma sobel_gray_ok w h s s1 d g (fr : bool) :
  0 < w < 2147483648 -> 0 < h < 2147483648 -> image (w * h) g ->
  wf s -> later s s1 -> mem s1 d = Some (OBytes g) ->
  (forall j, j <> d -> mem s1 j = mem s j) ->
  mem s d = (if fr then None else Some (OBytes g)) ->
  returns_fresh s (sobel_gray w h (Ptr d) fr s1) (edges_exact w h (fun x y => pixv g w 1 x y 0)).
Proof.
  intros Hw Hh Hg Hwf (W1 & O1 & T1 & N1) Hd Hoth Hfr.
  destruct (passes_ok w h g Hw Hh Hg) as (mags & mn & mx & b' & E1 & E2 & HE).
  pose proof (wh_small w h Hw Hh) as WH. assert (0 < w * h) by nia.
  assert (Ld : d < nxt s1) by (eapply holds_lt; eauto).
  unfold sobel_gray. cbv zeta. rewrite (u64_small (w * h)) by lia. unfold malloc_bytes.
  assert (Same : forall j, mem s j = if (j =? d) then mem s d else mem s1 j).
  { intros j. destruct (Z.eqb_spec j d) as [->|]; auto. symmetry. auto. }
  halloc EA OA; [exact W1| |].
  { destruct fr.
    - hfree. exists Null. eexists. split; [reflexivity|]. split; [later_from W1 O1|]. split.
      + intros i. cbn [mem]. rewrite Same. unfold upd. destruct (i =? d); auto.
      + exists (tick s1). cbn [tick]. split; [lia|]. rewrite <- O1. auto.
    - cbn [bindM ret]. exists Null. eexists. split; [reflexivity|]. split; [later_from W1 O1|]. split.
      + intros i. cbn [mem]. rewrite Same. destruct (Z.eqb_spec i d) as [->|]; congruence.
      + exists (tick s1). cbn [tick]. split; [lia|]. rewrite <- O1. auto. }
  halloc EB OB; [wf_tac W1| |].
  { destruct fr.
    - hfree. hfree. exists Null. eexists. split; [reflexivity|]. split; [later_from W1 O1|]. split.
      + intros i. cbn [mem]. rewrite Same. unfold upd. destruct (Z.eqb_spec i d), (Z.eqb_spec i (nxt s1)); auto; try lia.
        subst. symmetry. apply W1. lia.
      + exists (S (tick s1)). cbn [tick]. split; [lia|]. rewrite <- O1. auto.
    - cbn [bindM ret]. hfree. exists Null. eexists. split; [reflexivity|]. split; [later_from W1 O1|]. split.
      + intros i. cbn [mem]. rewrite Same. unfold upd. destruct (Z.eqb_spec i d), (Z.eqb_spec i (nxt s1)); auto; try lia; subst; try congruence.
        symmetry. apply W1. lia.
      + exists (S (tick s1)). cbn [tick]. split; [lia|]. rewrite <- O1. auto. }
  hget. erewrite bindM_Ok; [|eapply get_dbl_ok; mem_lookup]. cbv beta.
  hlift E1. cbv iota. erewrite bindM_Ok; [|eapply put_dbl_ok; mem_lookup]. cbv beta. cbn [mem nxt orc tick].
  hget. hlift E2. hput. hfree.
  assert (Hn : mem s (nxt s1) = None) by (rewrite <- Hoth by lia; apply W1; lia).
  destruct fr.
  - hfree. eexists (Ptr _). eexists. split; [reflexivity|]. split; [later_from W1 O1|]. split; [exact Hn|]. split.
    + exists b'. split; auto. mem_lookup.
    + intros j Hj. cbn [mem]. rewrite Same. unfold upd.
      destruct (Z.eqb_spec j d), (Z.eqb_spec j (nxt s1)), (Z.eqb_spec j (nxt s1 + 1)); auto; try lia.
      subst. symmetry. apply W1. lia.
  - cbn [bindM ret]. eexists (Ptr _). eexists. split; [reflexivity|]. split; [later_from W1 O1|]. split; [exact Hn|]. split.
    + exists b'. split; auto. mem_lookup.
    + intros j Hj. cbn [mem]. rewrite Same. unfold upd.
      destruct (Z.eqb_spec j d), (Z.eqb_spec j (nxt s1)), (Z.eqb_spec j (nxt s1 + 1)); auto; try lia; subst; try congruence.
      symmetry. apply W1. lia.
Qed.

Lemma sobel_guards w h c d : 0 < w < 2147483648 -> 0 < h < 2147483648 -> 0 < c -> w * h * 8 <= SIZE_MAX ->
  sobel_edge_detection w h c (Ptr d) =
    if c =? 1 then sobel_gray w h (Ptr d) false
    else grayscale_data <-- rgba_to_grayscale w h (Ptr d) ;;
         if is_null grayscale_data then ret Null else sobel_gray w h grayscale_data true.
Proof.
  intros Hw Hh Hc HS. unfold sobel_edge_detection. cbn [is_null orb].
  replace (w =? 0) with false by lia. replace (h =? 0) with false by lia. replace (c =? 0) with false by lia. cbn [orb].
  assert (SIZE_MAX / h <? w = false) as ->.
  { unfold SIZE_MAX in *; apply Z.ltb_ge. apply Z.div_le_lower_bound; nia. }
  cbv zeta. rewrite u64_small by (unfold SIZE_MAX in *; nia).
  replace (SIZE_MAX / 8 <? w * h) with false; [reflexivity|].
  symmetry. apply Z.ltb_ge. apply Z.div_le_lower_bound; lia.
Qed.

Lemma returns_fresh_impl s run (P Q : buf Z -> Prop) : (forall b, P b -> Q b) -> returns_fresh s run P -> returns_fresh s run Q.
Proof.
  intros H (p & s' & E & L & K). exists p, s'. split; auto. split; auto. destruct p; auto.
  destruct K as (A & (b & B & C) & D). split; auto. split; auto. exists b. auto.
Qed.
Lemma sobel_gray_image w h s p b :
  0 < w < 2147483648 -> 0 < h < 2147483648 -> w * h * 8 <= SIZE_MAX ->
  wf s -> holds s p b -> image (w * h) b ->
  returns_fresh s (sobel_edge_detection w h 1 p s) (edges_of w h (fun x y => pixv b w 1 x y 0)).
Proof.
  intros Hw Hh HS Hwf [d [-> Hd]] Hb. rewrite sobel_guards by (auto; lia). cbn [Z.eqb Pos.eqb].
  refine (returns_fresh_impl _ _ _ _ (fun b' (H : edges_exact w h _ b') => proj1 H) _).
  apply (sobel_gray_ok w h s s d b false); auto. apply later_refl; auto.
Qed.

Lemma edges_ext w h G G' b' : 0 < w -> 0 < h -> (forall x y, 0 <= x < w -> 0 <= y < h -> G x y = G' x y) ->
  edges_of w h G b' -> edges_of w h G' b'.
Proof.
  intros Hw Hh HG (X & lo & hi & (E1 & E2 & E3) & V & O).
  assert (A : forall x y dx dy, around w h G x y dx dy = around w h G' x y dx dy).
  { intros. unfold around. apply HG; unfold nearest_in; lia. }
  assert (S : forall x y, strength2 w h G x y = strength2 w h G' x y).
  { intros. unfold strength2, grad_x, grad_y. cbv zeta. rewrite !A. reflexivity. }
  split; auto. exists lo, hi. split; [|split].
  - split; [|split].
    + destruct E1 as (x & y & Hx & Hy & E). exists x, y. rewrite <- S. auto.
    + destruct E2 as (x & y & Hx & Hy & E). exists x, y. rewrite <- S. auto.
    + intros x y Hx Hy. rewrite <- S. auto.
  - intros x y Hx Hy. rewrite <- !S. auto.
  - intros x y x' y' Hx Hy Hx' Hy'. rewrite <- !S. auto.
Qed.

Lemma exact_ext w h G G' b' : 0 < w -> 0 < h -> (forall x y, 0 <= x < w -> 0 <= y < h -> G x y = G' x y) ->
  edges_exact w h G b' -> edges_exact w h G' b'.
Proof.
  intros Hw Hh HG (EO & lo & hi & (E1 & E2 & E3) & V). split; [exact (edges_ext w h G G' b' Hw Hh HG EO)|].
  assert (A : forall x y dx dy, around w h G x y dx dy = around w h G' x y dx dy).
  { intros. unfold around. apply HG; unfold nearest_in; lia. }
  assert (S : forall x y, strength2 w h G x y = strength2 w h G' x y).
  { intros. unfold strength2, grad_x, grad_y. cbv zeta. rewrite !A. reflexivity. }
  exists lo, hi. split; [split; [|split]|].
  - destruct E1 as (x & y & Hx & Hy & E). exists x, y. rewrite <- S. auto.
  - destruct E2 as (x & y & Hx & Hy & E). exists x, y. rewrite <- S. auto.
  - intros x y Hx Hy. rewrite <- S. auto.
  - intros x y Hx Hy. rewrite <- S. auto.
Qed.
Lemma sobel_rgba_exact w h c s p b :
  0 < w < 2147483648 -> 0 < h < 2147483648 -> w * h * 8 <= SIZE_MAX -> 1 < c ->
  wf s -> holds s p b -> image (w * h * 4) b ->
  returns_fresh s (sobel_edge_detection w h c p s) (edges_exact w h (fun x y => gray_at b w x y)).
Proof.
  intros Hw Hh HS Hc Hwf Hp Hb. pose proof Hp as [d [-> Hd]]. rewrite sobel_guards by (auto; lia).
  replace (c =? 1) with false by lia.
  assert (D : dims_ok w h) by (unfold dims_ok, is_u32, U32; unfold SIZE_MAX in *; lia).
  destruct (rgba_to_grayscale_ok w h s (Ptr d) b Hwf D Hp Hb) as (q & s1 & E & L & H).
  rewrite (bindM_Ok _ _ _ _ _ E). destruct q as [|q].
  - cbn [is_null]. exists Null, s1. split; [reflexivity|]. auto.
  - cbn [is_null]. destruct H as (Hn & (g & Hg & X & V) & Ho).
    destruct (sobel_gray_ok w h s s1 q g true Hw Hh (proj2 X) Hwf L Hg Ho Hn) as (r & s' & E' & L' & H').
    exists r, s'. split; auto. split; auto. destruct r; auto.
    destruct H' as (A & (b' & B & B') & C). split; auto. split; auto. exists b'. split; auto.
    eapply exact_ext; [| | |exact B']; try lia. intros x y Hx Hy. cbv beta. unfold pixv. rewrite V by auto. reflexivity.
Qed.

Lemma sobel_rgba_image w h c s p b :
  0 < w < 2147483648 -> 0 < h < 2147483648 -> w * h * 8 <= SIZE_MAX -> 1 < c ->
  wf s -> holds s p b -> image (w * h * 4) b ->
  returns_fresh s (sobel_edge_detection w h c p s) (edges_of w h (fun x y => gray_at b w x y)).
Proof.
  intros Hw Hh HS Hc Hwf Hp Hb.
  refine (returns_fresh_impl _ _ _ _ (fun b' (H : edges_exact w h _ b') => proj1 H) _). apply sobel_rgba_exact; auto.
Qed.

Lemma sobel_rejects w h c p s : wf s -> p = Null \/ w = 0 \/ h = 0 \/ c = 0 ->
  sobel_edge_detection w h c p s = Ok (Null, s).
Proof.
  intros _ H. unfold sobel_edge_detection.
  replace (is_null p || (w =? 0) || (h =? 0) || (c =? 0)) with true; [reflexivity|].
  symmetry. destruct H as [E|[E|[E|E]]]; subst; cbn; rewrite ?orb_true_r; reflexivity.
Qed.

(** ** Three bytes per pixel *)
Lemma for_ub {T} (P : Z -> T -> Prop) lo k hi (body : Z -> T -> res T) s e :
  lo <= k < hi -> P lo s ->
  (forall i s, lo <= i < k -> P i s -> exists s', body i s = Ok s' /\ P (i + 1) s') ->
  (forall s, P k s -> body k s = UB e) ->
  for_ lo hi body s = UB e.
Proof.
  intros Hk H0 Hs He. unfold for_.
  replace (Z.to_nat (hi - lo)) with (Z.to_nat (k - lo) + S (Z.to_nat (hi - k - 1)))%nat by lia.
  assert (G : forall n m lo s, Z.of_nat n = k - lo -> P lo s ->
    (forall i s, lo <= i < k -> P i s -> exists s', body i s = Ok s' /\ P (i + 1) s') ->
    iter_n (n + S m) lo body s = UB e).
  { clear lo s Hk H0 Hs. induction n; intros m lo s En HP HS.
    - cbn [Nat.add iter_n]. replace lo with k in * by lia. rewrite He by auto. reflexivity.
    - cbn [Nat.add iter_n]. destruct (HS lo s ltac:(lia) HP) as (s' & -> & HP'). cbn [bind].
      apply IHn; auto; try lia. intros i s0 Hi. apply HS. lia. }
  apply G; auto; lia.
Qed.

Lemma load_oob {A} (b : buf A) i : blen b <= i -> load b i = UB OutOfBounds.
Proof. intros H. unfold load, inb. replace ((0 <=? i) && (i <? blen b)) with false by lia. reflexivity. Qed.

Lemma gray_loop_rgb n b : 2 <= n -> n * 4 <= SIZE_MAX -> exact_image (n * 3) b ->
  rgba_to_grayscale_loop n b (bnew n) = UB OutOfBounds.
Proof.
  intros Hn HS [L I]. unfold rgba_to_grayscale_loop, SIZE_MAX in *.
  set (k := (n * 3 + 1) / 4). pose proof (Z.div_mod (n * 3 + 1) 4 ltac:(lia)) as D.
  pose proof (Z.mod_pos_bound (n * 3 + 1) 4 ltac:(lia)) as M. fold k in D.
  apply (for_ub (fun _ d => blen d = n) 0 k n); try lia; try reflexivity.
  - intros i d Hi Hd. cbv zeta. rewrite (u64_small (i * 4)) by lia.
    rewrite (u64_small (i * 4 + 1)) by lia. rewrite (u64_small (i * 4 + 2)) by lia.
    rewrite !(image_load (n * 3)) by (auto; lia). cbn [bind]. rewrite store_ok by lia.
    eexists. split; [reflexivity|]. rewrite blen_bset. auto.
  - intros d Hd. cbv zeta. rewrite (u64_small (k * 4)) by lia.
    rewrite (u64_small (k * 4 + 1)) by lia. rewrite (u64_small (k * 4 + 2)) by lia.
    destruct (Z_lt_le_dec (k * 4) (n * 3)) as [C|C]; [|rewrite load_oob by lia; reflexivity].
    rewrite (image_load (n * 3)) by (auto; lia). cbn [bind].
    destruct (Z_lt_le_dec (k * 4 + 1) (n * 3)) as [C'|C']; [|rewrite load_oob by lia; reflexivity].
    rewrite (image_load (n * 3)) by (auto; lia). cbn [bind].
    rewrite load_oob by lia. reflexivity.
Qed.

Lemma sobel_rgb w h s p b :
  0 < w < 2147483648 -> 0 < h < 2147483648 -> 2 <= w * h -> w * h * 8 <= SIZE_MAX ->
  wf s -> holds s p b -> exact_image (w * h * 3) b -> orc s (tick s) = true ->
  sobel_edge_detection w h 3 p s = UB OutOfBounds.
Proof.
  intros Hw Hh H2 HS Hwf [d [-> Hd]] Hb Ho. rewrite sobel_guards by (auto; lia). cbn [Z.eqb Pos.eqb].
  pose proof (gray_loop_rgb (w * h) b H2 ltac:(lia) Hb) as E.
  unfold bindM at 1. unfold rgba_to_grayscale. cbn [is_null orb].
  replace (w =? 0) with false by lia. replace (h =? 0) with false by lia. cbn [orb].
  assert (SIZE_MAX / h <? w = false) as ->.
  { unfold SIZE_MAX in *; apply Z.ltb_ge. apply Z.div_le_lower_bound; nia. }
  cbv zeta. rewrite u64_small by (unfold SIZE_MAX in *; nia). unfold malloc_bytes.
  pose proof (holds_lt s d _ Hwf Hd) as Ld.
  halloc EA OA; [exact Hwf|congruence|].
  hget. hget. unfold lift, bindM. rewrite E. reflexivity.
Qed.
