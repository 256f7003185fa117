(** * P_PerspEx: concrete runs of the perspective functions *)
From Coq Require Import Reals Lra Lia List.
From Flocq Require Import Core BinarySingleNaN.
From Verif Require Import Base BaseLemmas F FLemmas Heap HeapLemmas Spec ExUtil Spec_Persp M_Persp.
Import ListNotations.
Local Open Scope Z_scope.

(** Corners with whole coordinates *)
Definition c4 (a b c d e f g h : Z) : corners f64 :=
  mkcorners (d_of_Z a, d_of_Z b) (d_of_Z c, d_of_Z d) (d_of_Z e, d_of_Z f) (d_of_Z g, d_of_Z h).
(** No live block; allocations succeed, or fail *)
Definition st0 : st := mkst (fun _ => None) 0 (fun _ => true) 0.
Definition st0_oom : st := mkst (fun _ => None) 0 (fun _ => false) 0.
(** Live blocks 0: a picture, 1: another one, 2: a matrix *)
Definition st_pm (l l' : list Z) (m : list f64) : st :=
  mkst (upd (upd (upd (fun _ => None) 0 (Some (OBytes (of_list l)))) 1 (Some (OBytes (of_list l')))) 2 (Some (OMat m)))
    3 (fun _ => true) 0.
Definition whole (l : list Z) : list f64 := map d_of_Z l.

Lemma wf_st_pm l l' m : wf (st_pm l l' m).
Proof. intros i Hi. cbn [nxt st_pm] in Hi. cbn [mem st_pm]. rewrite !upd_other by lia. reflexivity. Qed.

Lemma collinear_run : exists q s' m,
  calculate_perspective_transform (Ptr 9) (Some (c4 29 19 39 59 21 23 30 41)) (Some (c4 0 0 10 0 10 100 0 100)) st0 = Ok (Ptr q, s') /\
  mem s' q = Some (OMat m) /\ (31 < Rabs (map_y m 30 41 - 100))%R.
Proof.
  set (src := c4 29 19 39 59 21 23 30 41). set (dst := c4 0 0 10 0 10 100 0 100).
  assert (E : option_map (map (@B2SF 53 1024)) (transform f64_arith src dst) =
    Some [SpecFloat.S754_finite false 6004799503160661 (-102);
          SpecFloat.S754_finite true 8691482992203677 (-104);
          SpecFloat.S754_finite true 8342605559729719 (-98);
          SpecFloat.S754_finite false 9007199254740989 (-99);
          SpecFloat.S754_finite true 9007199254740988 (-101);
          SpecFloat.S754_finite true 6825768185233407 (-94);
          SpecFloat.S754_finite true 7585009898729270 (-56);
          SpecFloat.S754_finite false 7585009898729273 (-57);
          SpecFloat.S754_finite false 4503599627370496 (-52)]) by (vm_compute; reflexivity).
  unfold calculate_perspective_transform. clearbody src dst. destruct (transform f64_arith src dst) as [m|]; [|discriminate E].
  eexists 0, _, m. split; [reflexivity|]. split; [reflexivity|].
  cbn [option_map] in E. injection E as E.
  assert (EN : forall i, entry m i = SF2R radix2 (nth i (map (@B2SF 53 1024) m) (B2SF d0))).
  { intros i. unfold entry. rewrite map_nth. symmetry. apply SF2R_B2SF. }
  unfold map_y, scale_at. rewrite !EN, E. cbn [nth SF2R]. unfold F2R, cond_Zopp. cbn [Fnum Fexp bpow].
  repeat match goal with |- context [Z.pow_pos ?a ?b] => let v := eval vm_compute in (Z.pow_pos a b) in change (Z.pow_pos a b) with v end.
  cbn [Z.opp]. match goal with |- context [(?n / ?d)%R] => assert (D : (d < 0)%R) by lra; assert (NN : (n > 69 * d)%R) by lra; set (nn := n) in *; set (dd := d) in * end.
  assert (Q : (nn / dd < 69)%R).
  { replace (nn / dd)%R with (- (nn * / - dd))%R by (field; lra). pose proof (Rinv_0_lt_compat (- dd) ltac:(lra)) as I.
    assert (nn * / - dd > (69 * dd) * / - dd)%R by (apply Rmult_gt_compat_r; lra).
    replace ((69 * dd) * / - dd)%R with (-69)%R in * by (field; lra). lra. }
  rewrite Rabs_left; lra.
Qed.

(** The fallback is not an option here: malloc was needed, failed, and its result
    was used. *)
Lemma oom_run : calculate_perspective_transform (Ptr 9) (Some (c4 0 0 4 0 4 2 0 2)) (Some (c4 0 0 8 0 8 4 0 4)) st0_oom = UB NullDeref.
Proof. vm_compute. reflexivity. Qed.

Definition bow_src : corners f64 := c4 0 0 2 0 2 1 0 1.
Definition bow_dst : corners f64 :=
  mkcorners (d_of_Z 4000, d_of_Z 1) (d_of_Z 0, d_of_Z 0) (d_of_Z 0, lit 1048577 1048576) (d_of_Z 4000, d_of_Z 0).
Lemma far_run : exists q s', calculate_perspective_transform (Ptr 9) (Some bow_src) (Some bow_dst) (st1 [1; 2; 3; 4]) = Ok (Ptr q, s') /\
  apply_matrix_3x3 1 1 (Ptr 0) 2 1 (Ptr q) s' = UB BadCast.
Proof.
  assert (E : (q <-- calculate_perspective_transform (Ptr 9) (Some bow_src) (Some bow_dst) ;; apply_matrix_3x3 1 1 (Ptr 0) 2 1 q) (st1 [1; 2; 3; 4]) = UB BadCast)
    by (vm_compute; reflexivity).
  unfold bindM in E. unfold calculate_perspective_transform in *.
  assert (T : exists m, transform f64_arith bow_src bow_dst = Some m).
  { destruct (transform f64_arith bow_src bow_dst) eqn:T; [eauto|]. exfalso.
    assert (K : match transform f64_arith bow_src bow_dst with Some _ => true | None => false end = true) by (vm_compute; reflexivity).
    rewrite T in K. discriminate. }
  destruct T as [m T]. rewrite T in *. eexists _, _. split; [reflexivity|]. exact E.
Qed.

Lemma twice_run :
  let s := st_pm [1; 2; 3; 4; 5; 6; 7; 8] [11; 12; 13; 14; 21; 22; 23; 24; 31; 32; 33; 34] (whole [-1; 0; 0; 0; -1; 0; 0; 0; 1]) in
  out_bytes (apply_matrix_3x3 3 1 (Ptr 1) 3 1 (Ptr 2) s) = Some (map Some [31; 32; 33; 34; 21; 22; 23; 24; 11; 12; 13; 14]) /\
  out_bytes ((_ <-- apply_matrix_3x3 2 1 (Ptr 0) 2 1 (Ptr 2) ;; apply_matrix_3x3 3 1 (Ptr 1) 3 1 (Ptr 2)) s) =
    Some (map Some [21; 22; 23; 24; 11; 12; 13; 14; 0; 0; 0; 0]).
Proof. cbv zeta. split; vm_compute; reflexivity. Qed.

Lemma white_run :
  let s := st_pm (repeat 255 16) [] [d1; d0; lit 1 10; d0; d1; lit 3 10; d0; d0; d1] in
  out_bytes (apply_matrix_3x3 2 2 (Ptr 0) 1 1 (Ptr 2) s) = Some (map Some [254; 254; 254; 254]).
Proof. cbv zeta. vm_compute. reflexivity. Qed.

(** A matrix with perspective *)
Definition persp_m : list f64 := [d1; d0; lit 1 2; d0; d1; d0; lit 1 4; d0; d1].
Lemma persp_entries : matrix persp_m /\ entry persp_m 0 = 1%R /\ entry persp_m 1 = 0%R /\ entry persp_m 2 = (1 / 2)%R /\
  entry persp_m 3 = 0%R /\ entry persp_m 4 = 1%R /\ entry persp_m 5 = 0%R /\ entry persp_m 6 = (1 / 4)%R /\ entry persp_m 7 = 0%R /\ entry persp_m 8 = 1%R.
Proof.
  assert (K : forall (x : f64) s k e r, B2SF x = SpecFloat.S754_finite s k e -> F2R (Float radix2 (cond_Zopp s (Zpos k)) e) = r -> B2R x = r).
  { intros x s k e r H <-. rewrite <- SF2R_B2SF, H. reflexivity. }
  split; [split; [reflexivity|]; repeat constructor|].
  unfold entry, persp_m. cbn [nth].
  assert (E1 : B2R d1 = 1%R) by apply isd_d1. assert (E0 : B2R d0 = 0%R) by apply isd_d0.
  assert (E2 : B2R (lit 1 2) = (1 / 2)%R) by (eapply K; [vm_compute; reflexivity|unfold F2R; cbn; lra]).
  assert (E4 : B2R (lit 1 4) = (1 / 4)%R) by (eapply K; [vm_compute; reflexivity|unfold F2R; cbn; lra]).
  auto 12.
Qed.

Lemma persp_tame : tame persp_m 3 2 /\ ~ half_turn persp_m.
Proof.
  destruct persp_entries as (M & E0 & E1 & E2 & E3 & E4 & E5 & E6 & E7 & E8). split.
  2:{ intros [H _]. rewrite E2 in H. lra. }
  split; auto.
  assert (A : forall r k, (- k <= r <= k -> Rabs r <= k)%R) by (intros; apply Rabs_le; auto).
  split; [intros i [->|[->|[->| ->]]]; rewrite ?E0, ?E1, ?E3, ?E4; apply A; lra|].
  split; [intros i [->| ->]; rewrite ?E2, ?E5; apply A; lra|].
  split; [intros i [->|[->| ->]]; rewrite ?E6, ?E7, ?E8; apply A; lra|].
  intros x y Hx Hy. unfold map_x, map_y. set (w := scale_at persp_m x y). 
  assert (W : (1 <= w)%R).
  { unfold w, scale_at. rewrite E6, E7, E8. assert (0 <= IZR x)%R by (apply IZR_le; lia). lra. }
  assert (X : (0 <= IZR x <= 2)%R) by (split; apply IZR_le; lia). assert (Y : (0 <= IZR y <= 1)%R) by (split; apply IZR_le; lia).
  rewrite E0, E1, E2, E3, E4, E5.
  assert (Q : forall n, (0 <= n <= 3 -> Rabs (n / w) <= 1000000000)%R).
  { intros n Hn. assert (I : (0 < / w <= 1)%R) by (split; [apply Rinv_0_lt_compat; lra|rewrite <- Rinv_1; apply Rinv_le; lra]).
    assert (0 <= n * / w)%R by (apply Rmult_le_pos; lra). assert (n * / w <= 3 * 1)%R by (apply Rmult_le_compat; lra).
    apply A. unfold Rdiv. lra. }
  split; [rewrite Rabs_pos_eq; lra|]. split; apply Q; lra.
Qed.

Lemma whole_moves a b c d e f : Z.abs a <= 9007199254740992 -> Z.abs b <= 9007199254740992 -> Z.abs c <= 9007199254740992 ->
  Z.abs d <= 9007199254740992 -> Z.abs e <= 9007199254740992 -> Z.abs f <= 9007199254740992 ->
  moves (whole [a; b; c; d; e; f; 0; 0; 1]) a b c d e f.
Proof.
  intros. assert (K : forall v, Z.abs v <= 9007199254740992 -> isd (d_of_Z v) (IZR v)) by (intros; apply d_of_Z_exact; lia).
  unfold whole, moves, matrix, entry. cbn [map nth length].
  split; [split; [reflexivity|]; repeat constructor; apply K; auto; lia|].
  repeat split; apply K; auto; lia.
Qed.
