(** * P_Peaks: proofs about corner_peaks.c *)
From Verif Require Import Base BaseLemmas F FLemmas Heap Spec HeapLemmas Spec_Peaks M_Peaks ExUtil.
From Coq Require Import Sorting.Sorted Reals Psatz.
From Flocq Require Import Core.
Local Open Scope Z_scope.

Lemma for_inv_max {S} (P : Z -> S -> Prop) lo hi body s : P lo s ->
  (forall i s, lo <= i < hi -> P i s -> exists s', body i s = Ok s' /\ P (i + 1) s') ->
  exists s', for_ lo hi body s = Ok s' /\ P (Z.max lo hi) s'.
Proof.
  intros H0 HS. destruct (Z.le_gt_cases lo hi).
  - rewrite Z.max_r by lia. apply for_inv; auto.
  - rewrite Z.max_l by lia. exists s. rewrite for_empty by lia. auto.
Qed.

(** ** The distance test is exact *)
Lemma sq_exact x y : 0 <= x < 33554432 -> 0 <= y < 33554432 ->
  isd (dmul (dsub (d_of_Z x) (d_of_Z y)) (dsub (d_of_Z x) (d_of_Z y))) (IZR ((x - y) * (x - y))).
Proof.
  intros Hx Hy.
  assert (D : isd (dsub (d_of_Z x) (d_of_Z y)) (IZR (x - y))).
  { assert (E : (IZR x - IZR y)%R = IZR (x - y)) by (rewrite minus_IZR; reflexivity).
    rewrite <- (rd_IZR (x - y)) by lia. rewrite <- E. apply dsub_R; [apply d_of_Z_exact; lia..|].
    rewrite E. apply bpow_big. lia. }
  assert (B : 0 <= (x - y) * (x - y) <= 33554432 * 33554432).
  { split; [apply Z.square_nonneg|]. destruct (Z.le_gt_cases 0 (x - y)).
    - apply Z.mul_le_mono_nonneg; lia.
    - replace ((x - y) * (x - y)) with ((y - x) * (y - x)) by ring. apply Z.mul_le_mono_nonneg; lia. }
  rewrite <- (rd_IZR ((x - y) * (x - y))) by lia. rewrite mult_IZR. apply dmul_R; auto.
  rewrite <- mult_IZR. apply bpow_big. lia.
Qed.

Lemma sqrt_lt_exact n md : 0 <= n -> n <= 2251799813685248 -> 0 <= md < 4294967296 ->
  Rlt_bool (rd (sqrt (IZR n))) (IZR md) = (n <? md * md).
Proof.
  intros Hn0 Hn Hmd. destruct (Z.ltb_spec n (md * md)) as [L|L].
  - apply Rlt_bool_true.
    destruct (Z.le_gt_cases 67108864 md) as [G|G].
    + apply Rle_lt_trans with (IZR 47453133).
      * apply rd_le_Z; [|lia]. rewrite <- (sqrt_square (IZR 47453133)) by (apply IZR_le; lia).
        rewrite <- mult_IZR. apply sqrt_le_1_alt. apply IZR_le. lia.
      * apply IZR_lt. lia.
    + set (y := (IZR (md * 134217728 - 1) * bpow radix2 (-27))%R).
      assert (Ey : y = (IZR md - / 134217728)%R).
      { unfold y. change (bpow radix2 (-27)) with (/ IZR 134217728)%R. rewrite minus_IZR, mult_IZR. field. }
      assert (md <> 0) by (intros ->; lia).
      apply Rle_lt_trans with y.
      * apply Rle_trans with (rd y); [apply gr_le; [exact prec64|]|apply Req_le; apply (rd_dyadic (md * 134217728 - 1) (-27)); lia].
        assert (P1 : (1 <= IZR md)%R) by (apply IZR_le; lia).
        assert (P2 : (IZR md <= 67108864)%R) by (apply IZR_le; lia).
        apply Rle_trans with (sqrt (y * y)); [|rewrite sqrt_square; [lra|rewrite Ey; lra]].
        apply sqrt_le_1_alt. apply Rle_trans with (IZR (md * md - 1)); [apply IZR_le; lia|].
        rewrite minus_IZR, mult_IZR. rewrite Ey. nra.
      * rewrite Ey. lra.
  - apply Rlt_bool_false. apply rd_ge_Z; [|lia].
    rewrite <- (sqrt_square (IZR md)) by (apply IZR_le; lia). rewrite <- mult_IZR. apply sqrt_le_1_alt. apply IZR_le. lia.
Qed.

Definition fpt (p : Z * Z) : f64 * f64 := (d_of_Z (fst p), d_of_Z (snd p)).

Definition small_pt (p : Z * Z) : Prop := 0 <= fst p < 33554432 /\ 0 <= snd p < 33554432.

Lemma dist_exact p q md : small_pt p -> small_pt q -> 0 <= md < 4294967296 ->
  dlt (euclidean_distance (fpt p) (fpt q)) (d_of_Z md) = (dist2 p q <? md * md).
Proof.
  intros [P1 P2] [Q1 Q2] Hmd. unfold euclidean_distance, fpt; cbn [fst snd]. unfold dist2.
  pose proof (sq_exact _ _ P1 Q1) as A. pose proof (sq_exact _ _ P2 Q2) as B.
  set (a := (fst p - fst q) * (fst p - fst q)) in *. set (b := (snd p - snd q) * (snd p - snd q)) in *.
  assert (Ba : 0 <= a <= 33554432 * 33554432).
  { unfold a. split; [apply Z.square_nonneg|].
    destruct (Z.le_gt_cases 0 (fst p - fst q)).
    - apply Z.mul_le_mono_nonneg; lia.
    - replace ((fst p - fst q) * (fst p - fst q)) with ((fst q - fst p) * (fst q - fst p)) by ring. apply Z.mul_le_mono_nonneg; lia. }
  assert (Bb : 0 <= b <= 33554432 * 33554432).
  { unfold b. split; [apply Z.square_nonneg|].
    destruct (Z.le_gt_cases 0 (snd p - snd q)).
    - apply Z.mul_le_mono_nonneg; lia.
    - replace ((snd p - snd q) * (snd p - snd q)) with ((snd q - snd p) * (snd q - snd p)) by ring. apply Z.mul_le_mono_nonneg; lia. }
  assert (S : isd (dadd (dmul (dsub (d_of_Z (fst p)) (d_of_Z (fst q))) (dsub (d_of_Z (fst p)) (d_of_Z (fst q))))
                       (dmul (dsub (d_of_Z (snd p)) (d_of_Z (snd q))) (dsub (d_of_Z (snd p)) (d_of_Z (snd q))))) (IZR (a + b))).
  { rewrite <- (rd_IZR (a + b)) by lia. rewrite plus_IZR. apply dadd_R; auto. rewrite <- plus_IZR. apply bpow_big. lia. }
  rewrite (dlt_R _ _ (rd (sqrt (IZR (a + b)))) (IZR md)).
  - apply sqrt_lt_exact; lia.
  - apply dsqrt_R; auto. apply IZR_le. lia.
  - apply d_of_Z_exact. lia.
Qed.

Lemma to_u32_Z z : 0 <= z < 4294967296 -> to_u32 (d_of_Z z) = Ok z.
Proof.
  intros H. pose proof (d_of_Z_exact z ltac:(lia)) as D.
  destruct (cast_int_R 0 4294967295 _ _ D) as [E _]; try lia.
  - apply Rlt_le_trans with (IZR 0); [lra|apply IZR_le; lia].
  - rewrite <- plus_IZR. apply IZR_lt. lia.
  - unfold to_u32. rewrite E, Ztrunc_IZR. reflexivity.
Qed.

Section Scan.
Variables (w h : Z) (b : buf Z) (acc rnd : f64).
Hypothesis Hw : 0 < w <= 33554432.
Hypothesis Hh : 0 < h <= 33554432.
Hypothesis HN : w * h <= 2147483648.
Hypothesis Hb : image (w * h * 2) b.

Lemma idx_bound x y : 0 <= x < w -> 0 <= y < h -> 0 <= y * w + x < w * h.
Proof. intros. pose proof (rm_bound w h x y). lia. Qed.

Lemma idx_ok x y c : 0 <= x < w -> 0 <= y < h -> 0 <= c <= 1 ->
  peak_idx w x y c = (y * w + x) * 2 + c /\ u32 (u32 (u32 (y * w) + x) * 2) = (y * w + x) * 2 /\
  0 <= (y * w + x) * 2 < 4294967295.
Proof.
  intros Hx Hy Hc. pose proof (idx_bound x y Hx Hy). pose proof (idx_bound 0 y ltac:(lia) Hy).
  unfold peak_idx. rewrite (u32_small (y * w)) by lia. rewrite (u32_small (y * w + x)) by lia.
  rewrite (u32_small ((y * w + x) * 2)) by lia. rewrite u32_small by lia. lia.
Qed.

Lemma load_px x y c : 0 <= x < w -> 0 <= y < h -> 0 <= c <= 1 ->
  load b ((y * w + x) * 2 + c) = Ok (pixv b w 2 x y c).
Proof.
  intros Hx Hy Hc. pose proof (idx_bound x y Hx Hy). destruct Hb as [L G].
  destruct (G ((y * w + x) * 2 + c) ltac:(lia)) as (v & E & _).
  unfold pixv, pix. rewrite E. apply load_ok; auto. lia.
Qed.

Lemma local_max_ok x y : 1 <= x < w - 1 -> 1 <= y < h - 1 -> exists m,
  is_local_maximum b w h x y 0 = Ok m /\
  (m = true <-> strength b w (x, y) <> 0 /\ forall u v, -1 <= u <= 1 -> -1 <= v <= 1 -> strength b w (x + u, y + v) <= strength b w (x, y)).
Proof.
  intros Hx Hy. unfold is_local_maximum. rewrite (u32_small (w - 1)), (u32_small (h - 1)) by lia.
  replace ((x =? 0) || (y =? 0) || (w - 1 <=? x) || (h - 1 <=? y)) with false by lia.
  destruct (idx_ok x y 0) as [-> _]; try lia. rewrite load_px by lia. cbn [bind].
  change (pixv b w 2 x y 0) with (strength b w (x, y)).
  destruct (Z.eqb_spec (strength b w (x, y)) 0) as [E0|E0].
  { exists false. split; auto. split; [discriminate|]. intros [A _]. contradiction. }
  match goal with |- context [for_brk (-1) 2 ?f tt] => set (body := f) end.
  set (P := fun u v : Z => strength b w (x + u, y + v) <= strength b w (x, y)).
  assert (HI : forall dy, -1 <= dy < 2 ->
    (exists s', body dy tt = Ok (inl s') /\ forall u, -1 <= u < 2 -> P u dy) \/
    (exists r, body dy tt = Ok (inr r) /\ ~ (forall u v, -1 <= u <= 1 -> -1 <= v <= 1 -> P u v))).
  { intros dy Hdy. unfold body.
    apply (for_brk_inv (fun dx _ => forall u, -1 <= u < dx -> P u dy) (fun _ => ~ (forall u v, -1 <= u <= 1 -> -1 <= v <= 1 -> P u v))); [lia|intros; lia|].
    intros dx [] Hdx HP. destruct (Z.eqb_spec dx 0) as [E1|E1], (Z.eqb_spec dy 0) as [E2|E2]; cbn [andb];
    try (left; exists tt; split; auto; intros u Hu; destruct (Z.eq_dec u dx) as [->|]; [subst; unfold P; rewrite !Z.add_0_r; lia|apply HP; lia]).
    all: rewrite (u32_small (x + dx)), (u32_small (y + dy)) by lia;
      destruct (idx_ok (x + dx) (y + dy) 0) as [-> _]; try lia; rewrite load_px by lia; cbn [bind];
      change (pixv b w 2 (x + dx) (y + dy) 0) with (strength b w (x + dx, y + dy));
      destruct (Z.ltb_spec (strength b w (x, y)) (strength b w (x + dx, y + dy))) as [L|L];
      [right; exists tt; split; auto; intros A; specialize (A dx dy ltac:(lia) ltac:(lia)); unfold P in A; lia
      |left; exists tt; split; auto; intros u Hu; destruct (Z.eq_dec u dx) as [->|]; [exact L|apply HP; lia]]. }
  destruct (for_brk_inv (fun dy (_ : unit) => forall u v, -1 <= u < 2 -> -1 <= v < dy -> P u v)
     (fun _ : unit => ~ (forall u v, -1 <= u <= 1 -> -1 <= v <= 1 -> P u v)) (-1) 2 body tt) as [(s' & -> & A)|(r & -> & A)].
  - lia.
  - intros; lia.
  - intros dy [] Hdy HP. destruct (HI dy Hdy) as [([] & E & A)|(r & E & A)]; [left; exists tt|right; exists r]; split; auto.
    intros u v Hu Hv. destruct (Z.eq_dec v dy) as [->|]; [apply A; lia|apply HP; lia].
  - exists true. cbn [bind]. split; auto. split; [|auto]. intros _. split; auto. intros u v Hu Hv. apply A; lia.
  - exists false. cbn [bind]. split; auto. split; [discriminate|]. intros [_ B]. contradiction.
Qed.

(** The candidates found so far *)
Definition cands_rep (cb : buf (f64 * f64)) (l : list (Z * Z)) : Prop :=
  forall k, (k < length l)%nat -> bget cb (Z.of_nat k) = Some (fpt (nth k l (0, 0))).

Definition scan_inv (y x : Z) (st : buf (f64 * f64) * Z) : Prop :=
  exists l, snd st = Z.of_nat (length l) /\ blen (fst st) = w * h /\ cands_rep (fst st) l /\
    Z.of_nat (length l) <= y * w + x /\ StronglySorted before l /\
    forall p, In p l <-> local_max w h b acc rnd p /\ before p (x, y).

Lemma SS_snoc (R : Z * Z -> Z * Z -> Prop) l p : StronglySorted R l -> (forall q, In q l -> R q p) -> StronglySorted R (l ++ [p]).
Proof.
  induction l as [|a l IH]; intros S A; cbn [app].
  - constructor; constructor.
  - apply StronglySorted_inv in S. destruct S as [S F]. constructor.
    + apply IH; auto. intros; apply A; right; auto.
    + apply Forall_app. split; auto. constructor; [apply A; left; auto|constructor].
Qed.

Lemma cands_snoc cb l p : cands_rep cb l -> cands_rep (bset cb (Z.of_nat (length l)) (fpt p)) (l ++ [p]).
Proof.
  intros C k Hk. rewrite app_length in Hk. cbn [length] in Hk. unfold bset; cbn [bget].
  destruct (Z.eqb_spec (Z.of_nat k) (Z.of_nat (length l))) as [E|E].
  - apply Nat2Z.inj in E. subst k. rewrite nth_middle. reflexivity.
  - rewrite app_nth1 by lia. apply C. lia.
Qed.

Lemma scan_step y x st : 1 <= y < h - 1 -> 1 <= x < w - 1 -> scan_inv y x st -> exists st',
  (let '(candidates, count) := st in
      let idx := u32 (u32 (u32 (y * w) + x) * 2) in
      wv <- load b idx ;;
      qv <- load b (u32 (idx + 1)) ;;
      let w0 := ddiv (d_of_Z wv) (d_of_Z 255) in
      let q := ddiv (d_of_Z qv) (d_of_Z 255) in
      if dlt rnd q && dlt acc w0 then
        m <- is_local_maximum b w h x y 0 ;;
        if m : bool then
          candidates <- store candidates count (d_of_Z x, d_of_Z y) ;;
          Ok (candidates, u32 (count + 1))
        else Ok st
      else Ok st) = Ok st' /\ scan_inv y (x + 1) st'.
Proof.
  intros Hy Hx. destruct st as [cb n]. intros (l & El & Bl & C & Hlen & SS & HI). cbn [fst snd] in *.
  destruct (idx_ok x y 0) as (_ & -> & Hid); try lia. cbv zeta.
  rewrite (u32_small ((y * w + x) * 2 + 1)) by lia.
  assert (L0 : load b ((y * w + x) * 2) = Ok (pixv b w 2 x y 0)).
  { rewrite <- load_px by lia. f_equal. lia. }
  rewrite L0, load_px by lia. cbn [bind].
  assert (LM : local_max w h b acc rnd (x, y) <->
    (dlt rnd (ddiv (d_of_Z (pixv b w 2 x y 1)) (d_of_Z 255)) && dlt acc (ddiv (d_of_Z (pixv b w 2 x y 0)) (d_of_Z 255)) = true /\
     strength b w (x, y) <> 0 /\ forall u v, -1 <= u <= 1 -> -1 <= v <= 1 -> strength b w (x + u, y + v) <= strength b w (x, y))).
  { unfold local_max, exceeds. cbn [fst snd]. rewrite andb_true_iff.
    change (roundness b w (x, y)) with (pixv b w 2 x y 1). change (strength b w (x, y)) with (pixv b w 2 x y 0). tauto. }
  assert (skip : ~ local_max w h b acc rnd (x, y) -> scan_inv y (x + 1) (cb, n)).
  { intros NL. exists l. cbn [fst snd]. do 3 (split; [assumption|]). split; [lia|]. split; auto.
    intros p. rewrite HI. split; intros [A B]; split; auto; unfold before in *; cbn [fst snd] in *; [lia|].
    destruct (Z.eq_dec (snd p) y) as [E|E]; [|lia]. destruct (Z.eq_dec (fst p) x) as [E'|E']; [|lia].
    exfalso. apply NL. destruct p; cbn [fst snd] in *; subst. exact A. }
  destruct (dlt rnd _ && dlt acc _).
  2:{ exists (cb, n). split; auto. apply skip. rewrite LM. intros [A _]. discriminate. }
  destruct (local_max_ok x y Hx Hy) as (m & -> & Em). cbn [bind]. destruct m.
  2:{ exists (cb, n). split; auto. apply skip. rewrite LM. intros [_ A]. apply Em in A. discriminate. }
  assert (L : local_max w h b acc rnd (x, y)) by (apply LM; split; auto; apply Em; auto).
  pose proof (idx_bound x y ltac:(lia) ltac:(lia)).
  rewrite store_ok by lia. cbn [bind]. eexists. split; [reflexivity|].
  exists (l ++ [(x, y)]). cbn [fst snd]. rewrite app_length. cbn [length].
  split; [rewrite u32_small; lia|]. split; [exact Bl|]. split.
  { subst n. apply (cands_snoc cb l (x, y)). exact C. }
  split; [lia|]. split.
  { apply SS_snoc; auto. intros q Hq. apply HI in Hq. tauto. }
  intros p. rewrite in_app_iff. cbn [In]. rewrite HI. unfold before. cbn [fst snd]. split.
  - intros [[A B]|[A|[]]]; [split; auto; lia|]. subst p. cbn [fst snd]. split; auto. lia.
  - intros [A B]. destruct (Z.eq_dec (snd p) y) as [E|E]; [destruct (Z.eq_dec (fst p) x) as [E'|E']|].
    + right. left. destruct p; cbn [fst snd] in *; subst; reflexivity.
    + left. split; auto. lia.
    + left. split; auto. lia.
Qed.

Lemma find_candidates_ok : exists cb l, find_candidates w h b acc rnd (bnew (w * h)) = Ok (cb, Z.of_nat (length l)) /\
  blen cb = w * h /\ cands_rep cb l /\ Z.of_nat (length l) <= w * h /\ StronglySorted before l /\
  forall p, In p l <-> local_max w h b acc rnd p.
Proof.
  unfold find_candidates. rewrite (u32_small (h - 1)), (u32_small (w - 1)) by lia.
  destruct (for_inv_max (fun y st => scan_inv y 1 st) 1 (h - 1)
    (fun y st => for_ 1 (w - 1) (fun x st =>
      let '(candidates, count) := st in
      let idx := u32 (u32 (u32 (y * w) + x) * 2) in
      wv <- load b idx ;;
      qv <- load b (u32 (idx + 1)) ;;
      let w0 := ddiv (d_of_Z wv) (d_of_Z 255) in
      let q := ddiv (d_of_Z qv) (d_of_Z 255) in
      if dlt rnd q && dlt acc w0 then
        m <- is_local_maximum b w h x y 0 ;;
        if m : bool then
          candidates <- store candidates count (d_of_Z x, d_of_Z y) ;;
          Ok (candidates, u32 (count + 1))
        else Ok st
      else Ok st) st) (bnew (w * h), 0)) as ([cb n] & E & l & El & Bl & C & Hlen & SS & HI).
  - exists []. cbn [fst snd length]. do 2 (split; [reflexivity|]). split; [intros k Hk; cbn in Hk; lia|].
    split; [lia|]. split; [constructor|]. intros p. cbn [In]. split; [tauto|].
    unfold local_max, before. cbn [fst snd]. intros [A B]. lia.
  - intros y st Hy HI.
    destruct (for_inv_max (fun x st => scan_inv y x st) 1 (w - 1) (fun x st =>
      let '(candidates, count) := st in
      let idx := u32 (u32 (u32 (y * w) + x) * 2) in
      wv <- load b idx ;;
      qv <- load b (u32 (idx + 1)) ;;
      let w0 := ddiv (d_of_Z wv) (d_of_Z 255) in
      let q := ddiv (d_of_Z qv) (d_of_Z 255) in
      if dlt rnd q && dlt acc w0 then
        m <- is_local_maximum b w h x y 0 ;;
        if m : bool then
          candidates <- store candidates count (d_of_Z x, d_of_Z y) ;;
          Ok (candidates, u32 (count + 1))
        else Ok st
      else Ok st) st HI) as (st' & E & l & El & Bl & C & Hlen & SS & HI').
    { intros x s1 Hx H1. apply scan_step; auto. }
    exists st'. split; [exact E|]. exists l. do 3 (split; [assumption|]). split; [lia|]. split; auto.
    intros p. rewrite HI'. unfold before, local_max. cbn [fst snd]. split; intros [A B]; (split; [exact A|]); lia.
  - cbn [fst snd] in *. subst n. exists cb, l. split; [exact E|]. do 2 (split; [assumption|]). split; [|split; auto].
    + destruct (Z.max_spec 1 (h - 1)) as [[Q Eq]|[Q Eq]]; rewrite Eq in Hlen.
      * assert ((h - 1) * w = w * h - w) by ring.
        lia.
      * destruct l as [|p l]; [cbn [length]; lia|]. exfalso.
        destruct (proj1 (HI p) (or_introl eq_refl)) as [A _]. unfold local_max in A. lia.
    + intros p. rewrite HI. split; [tauto|]. intros A. split; auto. unfold before, local_max in *. cbn [fst snd]. lia.
Qed.
End Scan.

Section Suppress.
Variables (w h : Z) (b : buf Z) (md : Z) (l : list (Z * Z)) (cb : buf (f64 * f64)).
Hypothesis Hw : 0 < w <= 33554432.
Hypothesis Hh : 0 < h <= 33554432.
Hypothesis HN : w * h <= 2147483648.
Hypothesis Hb : image (w * h * 2) b.
Hypothesis Hmd : 0 <= md < 4294967296.
Hypothesis Hl : Z.of_nat (length l) <= w * h.
Hypothesis Hcb : blen cb = w * h.
Hypothesis Hrep : cands_rep cb l.
Hypothesis Hin : forall p, In p l -> 0 <= fst p < w /\ 0 <= snd p < h.

Let n := Z.of_nat (length l).
Definition pt (k : Z) : Z * Z := nth (Z.to_nat k) l (0, 0).

Lemma pt_in k : 0 <= k < n -> In (pt k) l.
Proof. intros. apply nth_In. unfold n in *. lia. Qed.

Lemma load_cand k : 0 <= k < n -> load cb k = Ok (fpt (pt k)).
Proof.
  intros Hk. assert (nE : n = Z.of_nat (length l)) by reflexivity. apply load_ok; [lia|].
  replace k with (Z.of_nat (Z.to_nat k)) at 1 by lia. apply Hrep. lia.
Qed.

Lemma cand_val_ok k : 0 <= k < n -> cand_val w b (fpt (pt k)) = Ok (strength b w (pt k)).
Proof.
  intros Hk. destruct (Hin _ (pt_in k Hk)) as [X Y]. unfold cand_val, fpt. cbn [fst snd].
  rewrite !to_u32_Z by lia. cbn [bind].
  destruct (idx_ok w h Hw HN (fst (pt k)) (snd (pt k)) 0) as (_ & -> & _); try lia.
  rewrite <- (Z.add_0_r ((snd (pt k) * w + fst (pt k)) * 2)). apply (load_px w h b); auto. lia.
Qed.

Definition rok (r : buf Z) : Prop := blen r = n /\ forall k, 0 <= k < n -> bget r k = Some 0 \/ bget r k = Some 1.
Definition kept (r : buf Z) (k : Z) : Prop := bget r k = Some 0.
Definition beats (c a : Z) : Prop :=
  strength b w (pt a) < strength b w (pt c) \/ (strength b w (pt a) = strength b w (pt c) /\ c < a).
Definition near (a c : Z) : Prop := dist2 (pt a) (pt c) < md * md.
Definition sinv (i : Z) (r : buf Z) : Prop :=
  rok r /\ (forall a c, 0 <= a < i -> a < c < n -> kept r a -> kept r c -> ~ near a c) /\
  (forall a, 0 <= a < n -> ~ kept r a -> exists c, 0 <= c < n /\ near a c /\ beats c a).

Lemma rok_set r k : rok r -> 0 <= k < n -> rok (bset r k 1) /\ (forall a, kept (bset r k 1) a -> kept r a /\ a <> k) /\
  (forall a, a <> k -> kept r a -> kept (bset r k 1) a).
Proof.
  intros [L G] Hk. unfold rok, kept, bset; cbn [blen bget]. split; [split; auto|split].
  - intros a Ha. destruct (a =? k); auto.
  - intros a. destruct (Z.eqb_spec a k); [discriminate|auto].
  - intros a Ha. destruct (Z.eqb_spec a k); [contradiction|auto].
Qed.

Lemma sinv_set i r k c : sinv i r -> 0 <= k < n -> 0 <= c < n -> near k c -> beats c k -> sinv i (bset r k 1).
Proof.
  intros (R & A & B) Hk Hc N Bt. destruct (rok_set r k R Hk) as (R1 & K1 & K2). split; [exact R1|]. split.
  - intros a d Ha Hd Ka Kd. apply A; auto; apply K1; auto.
  - intros a Ha Ka. destruct (Z.eq_dec a k) as [->|].
    + exists c; auto.
    + apply B; auto.
Qed.

Lemma near_sym a c : near a c -> near c a.
Proof. unfold near, dist2. lia. Qed.

Lemma small_in k : 0 <= k < n -> small_pt (pt k).
Proof. intros Hk. destruct (Hin _ (pt_in k Hk)). unfold small_pt. lia. Qed.

Lemma load_rej r k : rok r -> 0 <= k < n -> exists v, load r k = Ok v /\ (v =? 0) = true /\ kept r k \/ load r k = Ok v /\ (v =? 0) = false /\ ~ kept r k.
Proof.
  intros [L G] Hk. unfold kept. destruct (G k Hk) as [E|E]; [exists 0; left|exists 1; right]; (split; [apply load_ok; [lia|auto]|]); rewrite E; split; auto. discriminate.
Qed.

Lemma suppress_ok r : rok r -> (forall a, 0 <= a < n -> kept r a) -> exists r', suppress w b md cb n r = Ok r' /\ sinv n r'.
Proof.
  intros R0 K0. assert (nE : n = Z.of_nat (length l)) by reflexivity. unfold suppress.
  apply (for_inv (fun i r => sinv i r)); [lia| |].
  { split; auto. split; [intros; lia|]. intros a Ha Hk. exfalso. apply Hk. auto. }
  clear r R0 K0. intros i r Hi HI.
  destruct (load_rej r i (proj1 HI) Hi) as (v & [(Ev & Ev' & Ki)|(Ev & Ev' & Ki)]); rewrite Ev; cbn [bind]; rewrite Ev'; cbn [negb]; clear Ev Ev'.
  2:{ exists r. split; auto. destruct HI as (R & A & B). split; auto. split; auto. intros a c Ha Hc Ka Kc.
      destruct (Z.eq_dec a i) as [->|]; [contradiction|]. apply A; auto. lia. }
  rewrite u32_small by lia.
  match goal with |- context [for_brk (i + 1) n ?f r] => set (body := f) end.
  destruct (for_brk_inv (fun j r => sinv i r /\ kept r i /\ forall c, i < c < j -> kept r c -> ~ near i c) (fun r => sinv (i + 1) r)
     (i + 1) n body r) as [(r' & -> & (R & A & B) & K & F)|(r' & -> & S)].
  - lia.
  - split; auto. split; auto. intros; lia.
  - clear r HI Ki. intros j r Hj (HI & Ki & F). unfold body.
    destruct (load_rej r j (proj1 HI) ltac:(lia)) as (v1 & [(Ev & Ev' & Kj)|(Ev & Ev' & Kj)]); rewrite Ev; cbn [bind]; rewrite Ev'; cbn [negb]; clear Ev Ev'.
    2:{ left. exists r. split; auto. split; auto. split; auto. intros c Hc Kc. destruct (Z.eq_dec c j) as [->|]; [contradiction|apply F; auto; lia]. }
    rewrite !load_cand by lia. cbn [bind]. rewrite dist_exact by (auto; apply small_in; lia).
    destruct (Z.ltb_spec (dist2 (pt i) (pt j)) (md * md)) as [N|N].
    2:{ left. exists r. split; auto. split; auto. split; auto. intros c Hc Kc. destruct (Z.eq_dec c j) as [->|]; [unfold near; lia|apply F; auto; lia]. }
    rewrite !cand_val_ok by lia. cbn [bind].
    assert (Lr : blen r = n) by apply HI.
    destruct (Z.leb_spec (strength b w (pt j)) (strength b w (pt i))) as [C|C]; rewrite store_ok by lia; cbn [bind].
    + left. eexists. split; [reflexivity|]. destruct (rok_set r j (proj1 HI) ltac:(lia)) as (R1 & K1 & K2). split.
      * apply sinv_set with i; auto; try lia; [apply near_sym; exact N|]. unfold beats. lia.
      * split; [apply K2; auto; lia|]. intros c Hc Kc. apply K1 in Kc. apply F; [lia|tauto].
    + right. eexists. split; [reflexivity|].
      destruct (sinv_set i r i j HI) as (R & A & B); auto; try lia; [unfold beats; lia|]. split; auto. split; auto.
      intros a c Ha Hc Ka Kc. destruct (rok_set r i (proj1 HI) ltac:(lia)) as (R1 & K1 & K2).
      apply K1 in Ka as Ka'. apply A; auto; lia.
  - cbn [bind]. exists r'. split; auto. split; auto. split; auto. intros a c Ha Hc Ka Kc.
    destruct (Z.eq_dec a i) as [->|]; [apply F; auto|apply A; auto; lia].
  - cbn [bind]. exists r'. auto.
Qed.

(** The kept candidates, in order *)
Fixpoint kept_upto (r : buf Z) (k : nat) : list (Z * Z) :=
  match k with
  | O => []
  | S m => kept_upto r m ++ (match bget r (Z.of_nat m) with Some 0 => [pt (Z.of_nat m)] | _ => [] end)
  end.

Lemma kept_upto_len r k : (length (kept_upto r k) <= k)%nat.
Proof. induction k; cbn [kept_upto length]; [lia|]. rewrite app_length. destruct (bget r (Z.of_nat k)) as [[| |]|]; cbn [length]; lia. Qed.

Lemma kept_upto_in r k p : In p (kept_upto r k) <-> exists i, 0 <= i < Z.of_nat k /\ kept r i /\ p = pt i.
Proof.
  induction k; cbn [kept_upto].
  - split; [intros []|intros (i & H & _); lia].
  - rewrite in_app_iff, IHk. unfold kept. split.
    + intros [(i & H1 & H2 & H3)|H]; [exists i; repeat split; auto; lia|].
      destruct (bget r (Z.of_nat k)) as [[| |]|] eqn:E; cbn [In] in H; try contradiction. destruct H as [<-|[]].
      exists (Z.of_nat k). repeat split; auto; lia.
    + intros (i & H1 & H2 & H3). destruct (Z.eq_dec i (Z.of_nat k)) as [->|].
      * right. rewrite H2. left. auto.
      * left. exists i. repeat split; auto; lia.
Qed.

Lemma kept_cases r i : rok r -> 0 <= i < n -> (kept r i /\ load r i = Ok 0 /\ kept_upto r (Z.to_nat (i + 1)) = kept_upto r (Z.to_nat i) ++ [pt i]) \/
  (~ kept r i /\ load r i = Ok 1 /\ kept_upto r (Z.to_nat (i + 1)) = kept_upto r (Z.to_nat i)).
Proof.
  intros [L G] Hi. unfold kept. replace (Z.to_nat (i + 1)) with (S (Z.to_nat i)) by lia. cbn [kept_upto].
  rewrite Z2Nat.id by lia. destruct (G i Hi) as [E|E]; rewrite E; [left|right].
  - split; auto. split; auto. apply load_ok; [lia|auto].
  - split; [discriminate|]. split; [apply load_ok; [lia|auto]|]. apply app_nil_r.
Qed.

Lemma count_kept_ok r : rok r -> count_kept r n = Ok (Z.of_nat (length (kept_upto r (length l)))).
Proof.
  intros R. unfold count_kept. assert (nE : n = Z.of_nat (length l)) by reflexivity.
  destruct (for_inv (fun i c => c = Z.of_nat (length (kept_upto r (Z.to_nat i)))) 0 n
    (fun i c => ri <- load r i ;; Ok (if ri =? 0 then u32 (c + 1) else c)) 0) as (c & -> & E).
  - lia.
  - reflexivity.
  - intros i c Hi E. pose proof (kept_upto_len r (Z.to_nat i)) as Lk.
    destruct (kept_cases r i R Hi) as [(K & -> & ->)|(K & -> & ->)]; cbn [bind]; eexists; (split; [reflexivity|]).
    + change (0 =? 0) with true. cbv iota. rewrite u32_small by lia. rewrite app_length. cbn [length]. lia.
    + exact E.
  - subst c. do 3 f_equal. f_equal. lia.
Qed.

Lemma copy_kept_ok r (m := kept_upto r (length l)) : rok r -> exists fb,
  copy_kept r cb n (bnew (Z.of_nat (length m))) = Ok (fb, Z.of_nat (length m)) /\ blen fb = Z.of_nat (length m) /\ cands_rep fb m.
Proof.
  intros R. unfold copy_kept. assert (nE : n = Z.of_nat (length l)) by reflexivity.
  assert (mono : forall j k, (j <= k)%nat -> (length (kept_upto r j) <= length (kept_upto r k))%nat).
  { intros j k Hjk. induction Hjk; [lia|]. cbn [kept_upto]. rewrite app_length. lia. }
  destruct (for_inv (fun i st => blen (fst st) = Z.of_nat (length m) /\ snd st = Z.of_nat (length (kept_upto r (Z.to_nat i))) /\
      cands_rep (fst st) (kept_upto r (Z.to_nat i))) 0 n
    (fun i st => let '(final, idx) := st in
      ri <- load r i ;;
      if ri =? 0 then
        p <- load cb i ;;
        final <- store final idx p ;;
        Ok (final, u32 (idx + 1))
      else Ok st) (bnew (Z.of_nat (length m)), 0)) as ((fb & c) & -> & L & E & C).
  - lia.
  - cbn [fst snd blen bnew Z.to_nat kept_upto length]. split; auto. split; auto. intros k Hk. cbn in Hk. lia.
  - intros i [fb c] Hi (L & E & C). cbn [fst snd] in *. pose proof (kept_upto_len r (Z.to_nat i)) as Lk.
    pose proof (mono (Z.to_nat (i + 1)) (length l) ltac:(lia)) as Mo. fold m in Mo.
    destruct (kept_cases r i R Hi) as [(K & -> & Ek)|(K & -> & Ek)]; rewrite Ek in *; cbn [bind].
    + change (0 =? 0) with true. cbv iota. rewrite load_cand by auto. cbn [bind].
      rewrite app_length in Mo. cbn [length] in Mo. rewrite store_ok by lia. cbn [bind]. eexists. split; [reflexivity|].
      cbn [fst snd]. split; [exact L|]. rewrite u32_small by lia. rewrite app_length. cbn [length]. split; [lia|].
      subst c. apply cands_snoc. exact C.
    + eexists. split; [reflexivity|]. auto.
  - cbn [fst snd] in *. replace (Z.to_nat n) with (length l) in * by lia. subst c. exists fb. auto.
Qed.

Hypothesis Hss : StronglySorted before l.

Lemma SS_nth (q : list (Z * Z)) : StronglySorted before q -> forall i j, (i < j < length q)%nat -> before (nth i q (0, 0)) (nth j q (0, 0)).
Proof.
  induction 1 as [|a q S IH F]; intros i j Hij; cbn [length] in Hij; [lia|].
  destruct j as [|j]; [lia|]. cbn [nth]. destruct i as [|i].
  - rewrite Forall_forall in F. apply F. apply nth_In. lia.
  - apply IH. lia.
Qed.
Lemma pt_before i j : 0 <= i -> i < j -> j < n -> before (pt i) (pt j).
Proof. intros. apply SS_nth; auto. unfold n in *. lia. Qed.

Lemma kept_sorted r k : (k <= length l)%nat -> StronglySorted before (kept_upto r k).
Proof.
  induction k; intros Hk; cbn [kept_upto]; [constructor|].
  destruct (bget r (Z.of_nat k)) as [[| |]|]; try (rewrite app_nil_r; apply IHk; lia).
  apply SS_snoc; [apply IHk; lia|]. intros q Hq. apply kept_upto_in in Hq. destruct Hq as (i & Hi & _ & ->).
  apply pt_before; unfold n; lia.
Qed.

(** Among finitely many candidates, the first of the strongest *)
Lemma strongest_upto k : (0 < k <= length l)%nat -> exists m, 0 <= m < Z.of_nat k /\
  forall i, 0 <= i < Z.of_nat k -> i <> m -> beats m i.
Proof.
  induction k as [|k IH]; intros Hk; [lia|]. destruct (Nat.eq_dec k 0) as [->|].
  - exists 0. split; [lia|]. intros i Hi Ne. lia.
  - destruct IH as (m & Hm & B); [lia|].
    destruct (Z.lt_ge_cases (strength b w (pt m)) (strength b w (pt (Z.of_nat k)))) as [L|L].
    + exists (Z.of_nat k). split; [lia|]. intros i Hi Ne. unfold beats in *. left.
      destruct (Z.eq_dec i m) as [->|]; [exact L|]. specialize (B i ltac:(lia) ltac:(lia)). lia.
    + exists m. split; [lia|]. intros i Hi Ne. destruct (Z.eq_dec i (Z.of_nat k)) as [->|]; [unfold beats; lia|]. apply B; lia.
Qed.

Lemma strongest_kept r : sinv n r -> (0 < length l)%nat -> exists p, In p (kept_upto r (length l)) /\
  forall q, In q l -> strength b w q <= strength b w p.
Proof.
  intros (R & A & B) Hlen. destruct (strongest_upto (length l) ltac:(lia)) as (m & Hm & Bm).
  exists (pt m). split.
  - apply kept_upto_in. exists m. split; auto. split; auto.
    destruct (proj2 R m Hm) as [E|E]; [exact E|]. exfalso.
    destruct (B m Hm) as (c & Hc & _ & Bc); [unfold kept; rewrite E; discriminate|].
    destruct (Z.eq_dec c m) as [->|Ne]; [unfold beats in Bc; lia|]. specialize (Bm c Hc Ne). unfold beats in *. lia.
  - intros q Hq. destruct (In_nth l q (0, 0) Hq) as (i & Hi & <-).
    destruct (Z.eq_dec (Z.of_nat i) m) as [E|Ne].
    + subst m. unfold pt. rewrite Nat2Z.id. lia.
    + specialize (Bm (Z.of_nat i) ltac:(lia) Ne). unfold beats, pt in Bm. rewrite Nat2Z.id in Bm. unfold pt. lia.
Qed.

Lemma peaks_final acc rnd r : sinv n r -> (forall p, In p l <-> local_max w h b acc rnd p) ->
  peaks_of w h b md acc rnd (kept_upto r (length l)).
Proof.
  intros S HL. assert (nE : n = Z.of_nat (length l)) by reflexivity. pose proof S as (R & A & B). constructor.
  - apply kept_sorted; lia.
  - intros p Hp. apply kept_upto_in in Hp. destruct Hp as (i & Hi & _ & ->). apply HL, pt_in. lia.
  - intros p q Hp Hq Ne. apply kept_upto_in in Hp. apply kept_upto_in in Hq.
    destruct Hp as (i & Hi & Ki & ->), Hq as (j & Hj & Kj & ->).
    destruct (Z.lt_trichotomy i j) as [L|[->|L]]; [|congruence|].
    + apply Z.nlt_ge. apply A; auto; lia.
    + apply Z.nlt_ge. intros N. apply (A j i); auto; try lia. apply near_sym. exact N.
  - intros p Hp Nin. apply HL in Hp. destruct (In_nth l p (0, 0) Hp) as (i & Hi & Ei).
    assert (Ep : p = pt (Z.of_nat i)) by (unfold pt; rewrite Nat2Z.id; auto).
    destruct (B (Z.of_nat i)) as (c & Hc & N & Bc); [lia| |].
    { intros K. apply Nin. apply kept_upto_in. exists (Z.of_nat i). split; [lia|]. auto. }
    exists (pt c). split; [apply HL, pt_in; auto|]. clear Ei. rewrite Ep. split; [exact N|].
    destruct Bc as [Bc|[E L]]; [left; auto|right]. split; auto. apply pt_before; lia.
  - intros q Hq. apply HL in Hq. destruct (strongest_kept r S) as (p & Hp & M).
    { destruct (In_nth l q (0, 0) Hq) as (i & Hi & _). lia. }
    exists p. split; auto. intros q' Hq'. apply M. apply HL; auto.
Qed.
End Suppress.

Lemma get_pts_ok s i b : mem s i = Some (OPts b) -> get_pts (Ptr i) s = Ok (b, s).
Proof. unfold get_pts, bindM, get_obj; intros ->; reflexivity. Qed.
Lemma get_ints_ok s i b : mem s i = Some (OInts b) -> get_ints (Ptr i) s = Ok (b, s).
Proof. unfold get_ints, bindM, get_obj; intros ->; reflexivity. Qed.
Lemma put_obj_ok s i o o' : mem s i = Some o ->
  put_obj (Ptr i) o' s = Ok (tt, mkst (upd (mem s) i (Some o')) (nxt s) (orc s) (tick s)).
Proof. unfold put_obj; intros ->; reflexivity. Qed.
Ltac hpts := erewrite bindM_Ok; [| eapply get_pts_ok; mem_lookup ]; cbv beta.
Ltac hints := erewrite bindM_Ok; [| eapply get_ints_ok; mem_lookup ]; cbv beta.
Ltac hputo := erewrite bindM_Ok; [| eapply put_obj_ok; mem_lookup ]; cbv beta; cbn [mem nxt orc tick].

Lemma corner_peaks_ok w h s p b md acc rnd : wf s -> 0 < w <= 33554432 -> 0 < h <= 33554432 -> w * h <= 2147483648 ->
  is_u32 md -> dfinite acc = true -> dfinite rnd = true -> holds s p b -> image (w * h * 2) b ->
  returns_peaks s (corner_peaks w h p md acc rnd s) (peaks_of w h b md acc rnd).
Proof.
  intros Hwf Hw Hh HN Hmd Fa Fr (ip & -> & Mp) Hb. unfold corner_peaks.
  change (is_null (Ptr ip)) with false. cbn [orb]. replace ((w =? 0) || (h =? 0)) with false by lia.
  replace (false || (w =? 0) || (h =? 0)) with false by lia.
  rewrite Fa, Fr. cbn [negb orb]. cbv iota.
  assert (1 <= w * h) by (pose proof (Z.mul_le_mono_nonneg 1 w 1 h); lia).
  replace (SIZE_MAX / h <? w) with false.
  2:{ symmetry. apply Z.ltb_ge. apply Z.div_le_lower_bound; unfold SIZE_MAX; lia. }
  rewrite (u64_small (w * h)) by lia. change (SIZE_MAX / 16) with 1152921504606846975.
  replace (1152921504606846975 <? w * h) with false by lia. cbv iota.
  pose proof (holds_lt s ip _ Hwf Mp) as Lp.
  halloc EA O1; [exact Hwf| |].
  { exists Null. eexists. split; [reflexivity|]. split; [later_tac Hwf|]. split; [mem_same Hwf|]. exists (tick s). cbn [tick]. split; auto; lia. }
  hget. hpts.
  destruct (find_candidates_ok w h b acc rnd Hw Hh HN Hb) as (cb & l & EC & Bc & C & Hlen & SS & HL).
  hlift EC. cbn [fst snd]. hputo.
  assert (Hin : forall p, In p l -> 0 <= fst p < w /\ 0 <= snd p < h).
  { intros q Hq. apply HL in Hq. unfold local_max in Hq. lia. }
  destruct (Z.eqb_spec (Z.of_nat (length l)) 0) as [E0|E0].
  { hfree. destruct l as [|? ?]; [|cbn in E0; lia].
    assert (HP : peaks_of w h b md acc rnd []).
    { constructor; [exact SS|intros q []|intros q r []|..]; intros q Hq; apply HL in Hq; destruct Hq. }
    match goal with |- returns_peaks _ (alloc _ ?st) _ => assert (W : wf st) by (wf_tac Hwf); destruct (alloc_cases st (OPeaks None 0) W) as [[E O]|[E O]]; rewrite E; clear E W; cbn [mem nxt orc tick] in * end.
    - exists Null. eexists. split; [reflexivity|]. split; [later_tac Hwf|]. split; [mem_same Hwf|]. eexists. cbn [tick]. split; [|exact O]. lia.
    - eexists _, _. split; [reflexivity|]. split; [later_tac Hwf|]. split; [apply Hwf; lia|]. exists []. split; [exact HP|]. left.
      split; auto. split; [mem_lookup|]. intros j Hj. cbn [mem]. unfold upd.
      repeat match goal with |- context [?a =? ?b] => destruct (Z.eqb_spec a b) end; subst; try lia; try (symmetry; apply Hwf; lia); reflexivity. }
  halloc EA O2; [wf_tac Hwf| |].
  { hfree. exists Null. eexists. split; [reflexivity|]. split; [later_tac Hwf|]. split; [mem_same Hwf|]. eexists. cbn [tick]. split; [|exact O2]. lia. }
  hpts. hints.
  unfold is_u32 in Hmd.
  destruct (suppress_ok w h b md l cb Hw Hh HN Hb Hmd Hlen Bc C Hin (bconst (Z.of_nat (length l)) 0)) as (r & ES & SI).
  { split; [reflexivity|]. intros k Hk. left. reflexivity. }
  { intros a Ha. reflexivity. }
  hlift ES. hputo.
  pose proof SI as (R & _ & _).
  hlift (count_kept_ok w h l HN Hlen r R).
  halloc EA O3; [wf_tac Hwf| |].
  { hfree. hfree. exists Null. eexists. split; [reflexivity|]. split; [later_tac Hwf|]. split; [mem_same Hwf|]. eexists. cbn [tick]. split; [|exact O3]. lia. }
  hpts.
  destruct (copy_kept_ok w h l cb HN Hlen Bc C r R) as (fb & EF & Bf & CF).
  hlift EF. cbn [fst snd]. hputo. hfree. hfree.
  halloc EA O4; [wf_tac Hwf| |].
  { hfree. exists Null. eexists. split; [reflexivity|]. split; [later_tac Hwf|]. split; [mem_same Hwf|]. eexists. cbn [tick]. split; [|exact O4]. lia. }
  pose proof (peaks_final w h b md l SS acc rnd r SI HL) as PF.
  destruct (strongest_kept w b md l r SI ltac:(lia)) as (p0 & Hp0 & _).
  revert PF Hp0 Bf CF. generalize (kept_upto l r (length l)). intros m PF Hp0 Bf CF.
  unfold ret. eexists _, _. split; [reflexivity|]. split; [later_tac Hwf|]. split; [apply Hwf; lia|].
  exists m. split; [exact PF|]. right. split; [intros ->; destruct Hp0|].
  exists (nxt s + 1 + 1), fb. split; [lia|]. split; [apply Hwf; lia|]. split; [mem_lookup|]. split; [mem_lookup|].
  split; [exact Bf|]. split; [exact CF|].
  intros j Hj Hk. cbn [mem]. unfold upd.
  repeat match goal with |- context [?a =? ?b] => destruct (Z.eqb_spec a b) end; subst; try lia; try (symmetry; apply Hwf; lia); reflexivity.
Qed.

Lemma corner_peaks_rejects w h s p md acc rnd : is_u32 w -> is_u32 h ->
  (p = Null \/ w = 0 \/ h = 0 \/ dfinite acc = false \/ dfinite rnd = false) ->
  corner_peaks w h p md acc rnd s = Ok (Null, s).
Proof.
  intros _ _ H. unfold corner_peaks.
  destruct (is_null p || (w =? 0) || (h =? 0)) eqn:E; [reflexivity|].
  destruct H as [->|[->|[->|H]]]; try (cbn in E; rewrite ?orb_true_r in E; discriminate).
  replace (negb (dfinite acc) || negb (dfinite rnd)) with true; [reflexivity|].
  destruct H as [->| ->]; cbn [negb orb]; rewrite ?orb_true_r; reflexivity.
Qed.

(** ** Examples *)
Definition out_peaks (r : res (ptr * st)) : option (list (option (Z * Z))) :=
  match r with
  | Ok (Ptr i, s') => match mem s' i with
      | Some (OPeaks (Some k) n) => match mem s' k with
         | Some (OPts pts) => Some (map (option_map (fun p => (Btrunc (fst p), Btrunc (snd p)))) (to_list pts))
         | _ => None end
      | _ => None end
  | _ => None
  end.

(** Three local maxima in a row, two pixels apart, each stronger than the one on
    its left *)
Definition chain3 : list Z :=
  [ 0;9; 0;9; 0;9; 0;9; 0;9; 0;9; 0;9;
    0;9; 10;9; 0;9; 20;9; 0;9; 30;9; 0;9;
    0;9; 0;9; 0;9; 0;9; 0;9; 0;9; 0;9 ].
Lemma chain3_image : image (7 * 3 * 2) (of_list chain3).
Proof. apply image_of_list; reflexivity. Qed.

Lemma chain3_left : local_max 7 3 (of_list chain3) d0 d0 (1, 1).
Proof.
  unfold local_max. cbn [fst snd]. split; [lia|]. split; [lia|]. split; [reflexivity|]. split; [reflexivity|].
  split; [vm_compute; discriminate|]. intros u v Hu Hv.
  assert (Cu : u = -1 \/ u = 0 \/ u = 1) by lia. assert (Cv : v = -1 \/ v = 0 \/ v = 1) by lia.
  destruct Cu as [->|[->| ->]], Cv as [->|[->| ->]]; vm_compute; discriminate.
Qed.

Lemma coverage_fails : exists w h s p b md acc rnd i s' k n pts q,
  wf s /\ holds s p b /\ image (w * h * 2) b /\ corner_peaks w h p md acc rnd s = Ok (Ptr i, s') /\
  mem s' i = Some (OPeaks (Some k) n) /\ mem s' k = Some (OPts pts) /\
  local_max w h b acc rnd q /\
  forall t, 0 <= t < n -> exists x y, bget pts t = Some (d_of_Z x, d_of_Z y) /\ md * md <= dist2 q (x, y).
Proof.
  assert (O : out_peaks (corner_peaks 7 3 (Ptr 0) 3 d0 d0 (st1 chain3)) = Some [Some (5, 1)]) by (vm_compute; reflexivity).
  destruct (corner_peaks_ok 7 3 (st1 chain3) (Ptr 0) (of_list chain3) 3 d0 d0) as (p & s' & E & L & H);
    try lia; try reflexivity; [apply wf_st1|unfold is_u32; lia|apply holds_st1|apply chain3_image|].
  revert O. rewrite E. unfold out_peaks. destruct p as [|i]; [discriminate|].
  destruct H as (_ & l & HP & [(-> & M & _)|(Nl & k & pts & _ & _ & M1 & M2 & B1 & B2 & _)]); [rewrite M; discriminate|].
  rewrite M1, M2. unfold to_list. rewrite B1, Nat2Z.id. intros O. injection O as O.
  assert (Ll : length l = 1%nat).
  { apply (f_equal (@length _)) in O. rewrite !map_length, seq_length in O. exact O. }
  rewrite Ll in O. cbn [seq map Z.of_nat] in O.
  pose proof (B2 0%nat ltac:(lia)) as B0. change (Z.of_nat 0) with 0 in B0. rewrite B0 in O. cbn [option_map fst snd] in O.
  destruct l as [|[x y] l]; [discriminate|]. cbn [nth fst snd] in *.
  pose proof (pk_max _ _ _ _ _ _ _ HP (x, y) (or_introl eq_refl)) as LM. unfold local_max in LM. cbn [fst snd] in LM.
  injection O as O1 O2.
  rewrite (btrunc_R _ _ (d_of_Z_exact x ltac:(lia))), Ztrunc_IZR in O1.
  rewrite (btrunc_R _ _ (d_of_Z_exact y ltac:(lia))), Ztrunc_IZR in O2. subst x y.
  exists 7, 3, (st1 chain3), (Ptr 0), (of_list chain3), 3, d0, d0, i, s', k, 1, pts, (1, 1).
  split; [apply wf_st1|]. split; [apply holds_st1|]. split; [apply chain3_image|]. split; [exact E|].
  split; [rewrite M1, Ll; reflexivity|]. split; [exact M2|].
  split; [apply chain3_left|]. intros t Ht. exists 5, 1. replace t with 0 by lia. split; [exact B0|]. vm_compute. discriminate.
Qed.
