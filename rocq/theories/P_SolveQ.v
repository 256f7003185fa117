(** * P_SolveQ: running the exact solver on rational corners, for examples *)
From Coq Require Import Reals QArith Qreals Qabs Lra Lia List.
From Flocq Require Import Core.
From Verif Require Import Base F Heap M_Persp.
Import ListNotations.
Local Open Scope nat_scope.

Definition q_arith : arith Q :=
  mkarith 0%Q 1%Q (fun a => Qred (- a)) (fun a b => Qred (a - b)) (fun a b => Qred (a * b)) (fun a b => Qred (a / b)) Qabs
    (fun a b => negb (Qle_bool b a)) (1 # 10000000000) (1000000 # 1) (fun _ => true).

Section Hom.
Notation h := Q2R.
Lemma h_red a : h (Qred a) = h a.
Proof. apply Qeq_eqR, Qred_correct. Qed.
Lemma h0 : h 0%Q = 0%R.
Proof. unfold Q2R. cbn. field. Qed.
Lemma h1 : h 1%Q = 1%R.
Proof. unfold Q2R. cbn. field. Qed.
Lemma h_neg a : h (a_neg q_arith a) = (- h a)%R.
Proof. cbn [a_neg q_arith]. rewrite h_red. apply Q2R_opp. Qed.
Lemma h_sub a b : h (a_sub q_arith a b) = (h a - h b)%R.
Proof. cbn [a_sub q_arith]. rewrite h_red. apply Q2R_minus. Qed.
Lemma h_mul a b : h (a_mul q_arith a b) = (h a * h b)%R.
Proof. cbn [a_mul q_arith]. rewrite h_red. apply Q2R_mult. Qed.
Lemma h_div a b : h (a_div q_arith a b) = (h a / h b)%R.
Proof.
  cbn [a_div q_arith]. rewrite h_red. unfold Qdiv, Rdiv. rewrite Q2R_mult. f_equal.
  destruct (Qeq_dec b 0) as [E|E].
  - rewrite (Qeq_eqR b 0 E), h0, Rinv_0. rewrite <- h0. apply Qeq_eqR. rewrite E. reflexivity.
  - apply Q2R_inv. auto.
Qed.
Lemma h_abs a : h (Qabs a) = Rabs (h a).
Proof.
  apply Qabs_case; intros H; apply Qle_Rle in H; rewrite h0 in H.
  - rewrite Rabs_pos_eq; auto.
  - rewrite Rabs_left1 by auto. apply Q2R_opp.
Qed.
Lemma h_lt a b : a_lt q_arith a b = Rlt_bool (h a) (h b).
Proof.
  cbn [a_lt q_arith]. symmetry. destruct (Qle_bool b a) eqn:E; cbn [negb].
  - apply Rlt_bool_false. apply Qle_Rle. apply Qle_bool_iff. auto.
  - apply Rlt_bool_true. apply Qlt_Rlt. apply Qnot_le_lt. intros C. apply Qle_bool_iff in C. congruence.
Qed.
Lemma h_eps : h (a_eps q_arith) = (1 / 10000000000)%R.
Proof. unfold Q2R. cbn. field. Qed.
Lemma h_big : h (a_big q_arith) = 1000000%R.
Proof. unfold Q2R. cbn. field. Qed.

Notation H := (map (map h)).
Lemma h_row aug i : row_at (H aug) i = map h (row_at aug i).
Proof. unfold row_at. change (@nil R) with (map h []). apply map_nth. Qed.
Lemma h_at aug i j : at_ real_arith (H aug) i j = h (at_ q_arith aug i j).
Proof. unfold at_. rewrite h_row. cbn [a_0 real_arith q_arith]. rewrite <- h0. apply map_nth. Qed.
Lemma h_set {A B} (f : A -> B) l i v : set_nth (map f l) i (f v) = map f (set_nth l i v).
Proof. revert i; induction l as [|a l IH]; intros [|i]; cbn; auto. rewrite IH; auto. Qed.
Lemma h_pivot aug i : forall n k r v,
  find_pivot real_arith (H aug) i k n r (h v) = (let '(r', v') := find_pivot q_arith aug i k n r v in (r', h v')).
Proof.
  induction n as [|n IH]; intros k r v; cbn [find_pivot]; auto.
  rewrite h_at. cbn [a_abs real_arith]. rewrite <- h_abs. change (a_abs q_arith) with Qabs. rewrite h_lt. cbn [a_lt real_arith].
  destruct (Rlt_bool _ _); apply IH.
Qed.
Lemma h_swap aug i r : swap_rows (H aug) i r = H (swap_rows aug i r).
Proof. unfold swap_rows. destruct (Nat.eqb r i); auto. rewrite !h_row, !h_set. auto. Qed.
Lemma h_rsub f q : forall i p, row_sub real_arith i (h f) (map h q) (map h p) = map h (row_sub q_arith i f q p).
Proof.
  induction q as [|a q IH]; intros i [|b p]; cbn [row_sub map]; auto.
  destruct i; cbn [map]; rewrite IH; auto. f_equal. rewrite h_sub, h_mul. reflexivity.
Qed.
Lemma h_elim i : forall n aug j, eliminate real_arith (H aug) i j n = H (eliminate q_arith aug i j n).
Proof.
  induction n as [|n IH]; intros aug j; cbn [eliminate]; auto.
  rewrite !h_at, !h_row. change (a_div real_arith) with Rdiv. rewrite <- h_div, h_rsub, h_set. apply IH.
Qed.
Lemma h_forward n : forall i aug, forward real_arith (H aug) i n = option_map H (forward q_arith aug i n).
Proof.
  induction n as [|n IH]; intros i aug; cbn [forward]; auto.
  rewrite h_at. change (a_abs real_arith) with Rabs. rewrite <- h_abs, h_pivot. change (a_abs q_arith) with Qabs.
  destruct (find_pivot q_arith _ _ _ _ _ _) as [r v]. rewrite h_lt, h_eps. cbn [a_lt a_eps real_arith].
  destruct (Rlt_bool _ _); auto. rewrite h_swap, h_elim. apply IH.
Qed.
Lemma h_back aug i : forall xs j acc, back_row real_arith (H aug) i j (map h xs) (h acc) = h (back_row q_arith aug i j xs acc).
Proof.
  induction xs as [|x xs IH]; intros j acc; cbn [back_row map]; auto.
  rewrite h_at. change (a_mul real_arith) with Rmult. change (a_sub real_arith) with Rminus. rewrite <- h_mul, <- h_sub. apply IH.
Qed.
Lemma h_backward aug : forall n xs, backward real_arith (H aug) n (map h xs) = option_map (map h) (backward q_arith aug n xs).
Proof.
  induction n as [|n IH]; intros xs; cbn [backward]; auto.
  rewrite !h_at. change (a_abs real_arith) with Rabs. rewrite <- h_abs. rewrite h_lt, h_eps. cbn [a_lt a_eps real_arith].
  change (a_abs q_arith) with Qabs. destruct (Rlt_bool _ _); auto.
  rewrite h_back. change (a_div real_arith) with Rdiv. rewrite <- h_div.
  cbn [a_finite real_arith q_arith negb]. change (h ?v :: map h xs) with (map h (v :: xs)). apply IH.
Qed.
Lemma h_solve aug : solve_linear_system real_arith (H aug) = option_map (map h) (solve_linear_system q_arith aug).
Proof.
  unfold solve_linear_system. rewrite h_forward. destruct (forward q_arith aug 0 8); cbn [option_map]; auto.
  change (@nil R) with (map h []). apply h_backward.
Qed.
Definition h_pt (p : Q * Q) : R * R := (h (fst p), h (snd p)).
Definition h_corners (c : corners Q) : corners R := mkcorners (h_pt (c_tl c)) (h_pt (c_tr c)) (h_pt (c_br c)) (h_pt (c_bl c)).
Lemma h_transform src dst : transform real_arith (h_corners src) (h_corners dst) = option_map (map h) (transform q_arith src dst).
Proof.
  unfold transform.
  assert (E : equations real_arith (h_corners src) (h_corners dst) = option_map H (equations q_arith src dst)).
  { destruct src as [[s1 t1] [s2 t2] [s3 t3] [s4 t4]], dst as [[u1 v1] [u2 v2] [u3 v3] [u4 v4]].
    unfold equations. cbn -[Q2R Qred Qmult Qopp]. change (0 # 1)%Q with 0%Q. change (1 # 1)%Q with 1%Q. rewrite h0, h1.
    rewrite !h_red, !Q2R_mult, !h_red, !Q2R_opp. reflexivity. }
  rewrite E. destruct (equations q_arith src dst) as [aug|]; cbn [option_map]; auto.
  rewrite h_solve. destruct (solve_linear_system q_arith aug) as [x|]; cbn [option_map]; auto.
  assert (EX : existsb (fun v => negb (a_finite real_arith v) || a_lt real_arith (a_big real_arith) (a_abs real_arith v)) (map h x) =
    existsb (fun v => negb (a_finite q_arith v) || a_lt q_arith (a_big q_arith) (a_abs q_arith v)) x).
  { induction x as [|v x IH]; cbn [existsb map]; auto. rewrite IH. f_equal. cbn [a_finite real_arith q_arith negb orb].
    rewrite h_lt, h_big. change (a_abs q_arith) with Qabs. rewrite h_abs. reflexivity. }
  rewrite EX. destruct (existsb _ x); auto. cbn [option_map]. rewrite map_app. cbn [map a_1 q_arith real_arith]. rewrite h1. reflexivity.
Qed.
End Hom.
