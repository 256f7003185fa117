(** * FNear: relative closeness of positive reals, counted in units of 2^-24 *)
From Verif Require Import Base BaseLemmas F FLemmas FLemmas32.
From Coq Require Import Reals Lra Psatz.
From Flocq Require Import Core.
Local Open Scope R_scope.

(** [x] equals [y] up to [k] units *)
Definition near (k x y : R) : Prop := 0 <= y /\ y * (1 - k * uf) <= x <= y * (1 + k * uf).

Lemma uf_pos : 0 < uf. Proof. unfold uf. lra. Qed.

Lemma near_refl y : 0 <= y -> near 0 y y.
Proof. intros. unfold near. lra. Qed.

Lemma near_weak j k x y : near j x y -> j <= k -> near k x y.
Proof.
  intros (H0 & H1 & H2) H. pose proof uf_pos. split; auto.
  assert (j * uf <= k * uf) by (apply Rmult_le_compat_r; lra). split.
  - apply Rle_trans with (y * (1 - j * uf)); auto. apply Rmult_le_compat_l; lra.
  - apply Rle_trans with (y * (1 + j * uf)); auto. apply Rmult_le_compat_l; lra.
Qed.

Lemma near_pos k x y : near k x y -> 0 <= k <= 10000 -> 0 <= x.
Proof.
  intros (H0 & H1 & H2) H. eapply Rle_trans; [|exact H1]. apply Rmult_le_pos; auto. unfold uf. lra.
Qed.

(** between half and twice *)
Lemma near_half k x y : near k x y -> 0 <= k <= 10000 -> y * (9 / 10) <= x <= y * (11 / 10).
Proof.
  intros (H0 & H1 & H2) H. assert (0 <= k * uf <= 1 / 10) by (unfold uf; lra). split.
  - eapply Rle_trans; [|exact H1]. apply Rmult_le_compat_l; lra.
  - eapply Rle_trans; [exact H2|]. apply Rmult_le_compat_l; lra.
Qed.

Lemma near_add k x y x' y' : near k x y -> near k x' y' -> near k (x + x') (y + y').
Proof. unfold near. intros. lra. Qed.

Lemma near_scale k c x y : 0 <= c -> near k x y -> near k (c * x) (c * y).
Proof.
  intros Hc (H0 & H1 & H2). split; [now apply Rmult_le_pos|].
  split; rewrite Rmult_assoc; apply Rmult_le_compat_l; auto.
Qed.

Lemma near_mul j k x y x' y' : near j x y -> near k x' y' -> 0 <= j <= 4000 -> 0 <= k <= 4000 ->
  near (j + k + 1) (x * x') (y * y').
Proof.
  intros N1 N2 Hj Hk. pose proof (near_pos _ _ _ N1 ltac:(lra)) as Px. pose proof (near_pos _ _ _ N2 ltac:(lra)) as Px'.
  destruct N1 as (A0 & A1 & A2), N2 as (B0 & B1 & B2). pose proof uf_pos as U.
  assert (P0 : 0 <= y * y') by (apply Rmult_le_pos; auto). split; auto.
  assert (J : 0 <= j * uf <= 1 / 4000) by (unfold uf; lra). assert (K : 0 <= k * uf <= 1 / 4000) by (unfold uf; lra).
  assert (Hjk : 0 <= (j * uf) * (k * uf) <= uf).
  { split; [apply Rmult_le_pos; lra|]. replace ((j * uf) * (k * uf)) with (j * k * uf * uf) by ring.
    assert (j * k <= 4000 * 4000) by (apply Rmult_le_compat; lra).
    assert (j * k * uf <= 1) by (unfold uf; lra). apply Rle_trans with (1 * uf); [apply Rmult_le_compat_r; lra|lra]. }
  split.
  - apply Rle_trans with ((y * (1 - j * uf)) * (y' * (1 - k * uf))).
    + replace (y * (1 - j * uf) * (y' * (1 - k * uf))) with (y * y' * ((1 - j * uf) * (1 - k * uf))) by ring.
      apply Rmult_le_compat_l; auto. replace ((j + k + 1) * uf) with (j * uf + k * uf + uf) by ring. lra.
    + apply Rmult_le_compat; auto; apply Rmult_le_pos; auto; lra.
  - apply Rle_trans with ((y * (1 + j * uf)) * (y' * (1 + k * uf))).
    + apply Rmult_le_compat; auto.
    + replace (y * (1 + j * uf) * (y' * (1 + k * uf))) with (y * y' * ((1 + j * uf) * (1 + k * uf))) by ring.
      apply Rmult_le_compat_l; auto. replace ((j + k + 1) * uf) with (j * uf + k * uf + uf) by ring. lra.
Qed.

Lemma near_inv k x y : near k x y -> 0 < y -> 0 <= k <= 3000 -> near (k + 1) (/ x) (/ y).
Proof.
  intros N Hy Hk. pose proof (near_half _ _ _ N ltac:(lra)) as Hh. destruct N as (A0 & A1 & A2). pose proof uf_pos as U.
  assert (Hx : 0 < x) by lra.
  assert (K : 0 <= k * uf <= 1 / 4000) by (unfold uf; lra).
  assert (K2 : (k * uf) * (k * uf) + (k * uf) * uf <= uf).
  { replace ((k * uf) * (k * uf) + (k * uf) * uf) with (k * (k + 1) * uf * uf) by ring.
    assert (k * (k + 1) <= 3000 * 3001) by (apply Rmult_le_compat; lra).
    assert (k * (k + 1) * uf <= 1) by (unfold uf; lra). apply Rle_trans with (1 * uf); [apply Rmult_le_compat_r; lra|lra]. }
  assert (0 <= (k * uf) * (k * uf)) by (apply Rmult_le_pos; lra).
  assert (0 <= (k * uf) * uf) by (apply Rmult_le_pos; lra).
  assert (Q : 0 < / y) by (apply Rinv_0_lt_compat; auto).
  split; [lra|]. replace ((k + 1) * uf) with (k * uf + uf) by ring.
  split; apply Rmult_le_reg_r with (y * x); try (apply Rmult_lt_0_compat; auto).
  - replace (/ y * (1 - (k * uf + uf)) * (y * x)) with ((1 - (k * uf + uf)) * x) by (field; lra).
    replace (/ x * (y * x)) with y by (field; lra).
    apply Rle_trans with ((1 - (k * uf + uf)) * (y * (1 + k * uf))).
    + apply Rmult_le_compat_l; [|lra]. unfold uf in *. lra.
    + replace ((1 - (k * uf + uf)) * (y * (1 + k * uf))) with (y * ((1 - (k * uf + uf)) * (1 + k * uf))) by ring.
      rewrite <- (Rmult_1_r y) at 2. apply Rmult_le_compat_l; lra.
  - replace (/ y * (1 + (k * uf + uf)) * (y * x)) with ((1 + (k * uf + uf)) * x) by (field; lra).
    replace (/ x * (y * x)) with y by (field; lra).
    apply Rle_trans with ((1 + (k * uf + uf)) * (y * (1 - k * uf))).
    + replace ((1 + (k * uf + uf)) * (y * (1 - k * uf))) with (y * ((1 + (k * uf + uf)) * (1 - k * uf))) by ring.
      rewrite <- (Rmult_1_r y) at 1. apply Rmult_le_compat_l; lra.
    + apply Rmult_le_compat_l; lra.
Qed.

Lemma near_div j k x y x' y' : near j x y -> near k x' y' -> 0 < y' -> 0 <= j <= 4000 -> 0 <= k <= 3000 ->
  near (j + k + 2) (x / x') (y / y').
Proof.
  intros. eapply near_weak; [apply near_mul; [eassumption|apply near_inv; eassumption|lra|lra]|lra].
Qed.

(** Powers of two as decimals *)
Lemma small100 : bpow radix2 (-100) <= 1 / 1000000000000000000000000000000.
Proof. change (bpow radix2 (-100)) with (/ 1267650600228229401496703205376). lra. Qed.
Lemma big100 : 1000000000000000000000000000000 <= bpow radix2 100.
Proof. change (bpow radix2 100) with 1267650600228229401496703205376. lra. Qed.

(** Zero, or large enough to be a normal number *)
Definition nz (x : R) : Prop := x = 0 \/ 1 / 1000000000000000000000000000000 <= x.

Lemma nz_pos x : nz x -> 0 <= x.
Proof. unfold nz. lra. Qed.
Lemma nz_add x y : nz x -> nz y -> nz (x + y).
Proof. unfold nz. lra. Qed.

Lemma near_rf k x y : near k x y -> nz x -> 0 <= k <= 10000 -> near (k + 101 / 100) (rf x) y.
Proof.
  intros N Z Hk. pose proof (near_pos _ _ _ N Hk) as Px. destruct N as (A0 & A1 & A2). pose proof uf_pos as U.
  pose proof small100 as SM.
  assert (R : x * (1 - uf) <= rf x <= x * (1 + uf)) by (apply rf_rel; destruct Z; [auto|right; lra]).
  assert (K : 0 <= k * uf <= 1 / 1000) by (unfold uf; lra).
  assert (KK : 0 <= k * uf * uf <= 1 / 1000 * uf) by (split; [apply Rmult_le_pos; lra|apply Rmult_le_compat_r; lra]).
  split; auto. replace ((k + 101 / 100) * uf) with (k * uf + 101 / 100 * uf) by ring. split.
  - eapply Rle_trans; [|apply R]. apply Rle_trans with (y * (1 - k * uf) * (1 - uf)).
    + rewrite Rmult_assoc. apply Rmult_le_compat_l; lra.
    + apply Rmult_le_compat_r; auto. unfold uf; lra.
  - eapply Rle_trans; [apply R|]. apply Rle_trans with (y * (1 + k * uf) * (1 + uf)).
    + apply Rmult_le_compat_r; auto. lra.
    + rewrite Rmult_assoc. apply Rmult_le_compat_l; lra.
Qed.
Lemma near_rd k x y : near k x y -> nz x -> 0 <= k <= 10000 -> near (k + 1 / 100) (rd x) y.
Proof.
  intros N Z Hk. pose proof (near_pos _ _ _ N Hk) as Px. destruct N as (A0 & A1 & A2). pose proof uf_pos as U.
  pose proof small100 as SM.
  assert (R : x * (1 - ud) <= rd x <= x * (1 + ud)).
  { apply rd_relative; destruct Z; [auto|right]. apply Rle_trans with (bpow radix2 (-100)); [apply bpow_le; lia|lra]. }
  assert (K : 0 <= k * uf <= 1 / 1000) by (unfold uf; lra).
  assert (D : 0 < ud <= uf / 1000) by (unfold ud, uf; lra).
  assert (KK : 0 <= k * uf * ud <= 1 / 1000 * ud) by (split; [apply Rmult_le_pos; lra|apply Rmult_le_compat_r; lra]).
  split; auto. replace ((k + 1 / 100) * uf) with (k * uf + 1 / 100 * uf) by ring. split.
  - eapply Rle_trans; [|apply R]. apply Rle_trans with (y * (1 - k * uf) * (1 - ud)).
    + rewrite Rmult_assoc. apply Rmult_le_compat_l; lra.
    + apply Rmult_le_compat_r; auto. unfold ud; lra.
  - eapply Rle_trans; [apply R|]. apply Rle_trans with (y * (1 + k * uf) * (1 + ud)).
    + apply Rmult_le_compat_r; auto. lra.
    + rewrite Rmult_assoc. apply Rmult_le_compat_l; lra.
Qed.

(** Magnitudes *)
Lemma ok100 x : 0 <= x <= 1000000000000000000000000000000 -> Rabs x <= bpow radix2 100.
Proof. intros. rewrite Rabs_pos_eq by lra. pose proof big100. lra. Qed.
Lemma ok1000 x : 0 <= x <= 1000000000000000000000000000000 -> Rabs x <= bpow radix2 1000.
Proof. intros. eapply Rle_trans; [now apply ok100|]. apply bpow_le. lia. Qed.
