(** * P_WatershedEx: consequences and examples for the watershed theorems *)
From Verif Require Import Base BaseLemmas F Heap HeapLemmas Spec Spec_Morph Spec_Draw Spec_Watershed M_Watershed P_Watershed ExUtil.

Lemma fresh_impl s r (P Q : buf Z -> Prop) : (forall b, P b -> Q b) -> returns_fresh s r P -> returns_fresh s r Q.
Proof.
  intros H (p & s' & E & L & M). exists p, s'. split; auto. split; auto. destruct p; auto.
  destruct M as (M1 & (b & M2 & M3) & M4). split; auto. split; eauto.
Qed.

Lemma watershed_regions fuel w h s p q b mk n :
  wf s -> 0 < w -> 0 < h -> w * h <= 1073741824 -> w * h + 1 < Z.of_nat fuel ->
  holds s p b -> image (w * h) b -> holds_pts s q mk -> markers_ok w h mk n ->
  returns_fresh s (watershed fuel w h p q n false s) (fun b' => exists L,
    coloured w h L b' /\ (forall x y, inside w h x y -> 0 <= L x y < n) /\ seeded n mk L /\ connected w h mk L /\
    watershed_of w h (fun x y => pixv b w 1 x y 0) mk n L).
Proof.
  intros. eapply fresh_impl; [|eapply watershed_ok; eauto].
  intros b' (L & C & LB & S & CN & O & _). destruct (O eq_refl) as [O1 O2]. exists L. split; auto. split; [|auto].
  intros x y Hi. specialize (LB x y Hi). specialize (O1 x y Hi). lia.
Qed.

Lemma watershed_colours fuel w h s p q b mk n bnd :
  wf s -> 0 < w -> 0 < h -> w * h <= 1073741824 -> w * h + 1 < Z.of_nat fuel ->
  holds s p b -> image (w * h) b -> holds_pts s q mk -> markers_ok w h mk n ->
  returns_fresh s (watershed fuel w h p q n bnd s) (fun b' => exact_image (w * h * 4) b' /\
    (forall m, 0 <= m < n -> (forall m', 0 <= m' < n -> m' <> m -> (mx mk m', my mk m') <> (mx mk m, my mk m)) ->
       (pixv b' w 4 (mx mk m) (my mk m) 0, pixv b' w 4 (mx mk m) (my mk m) 1, pixv b' w 4 (mx mk m) (my mk m) 2)
         = region_colour m) /\
    forall x y, inside w h x y -> pix b' w 4 x y 3 = Some 255 /\
      exists l, -1 <= l < n /\ (bnd = false -> 0 <= l) /\
        (pixv b' w 4 x y 0, pixv b' w 4 x y 1, pixv b' w 4 x y 2) = region_colour l).
Proof.
  intros. eapply fresh_impl; [|eapply watershed_ok; eauto].
  intros b' (L & (EI & C) & LB & S & CN & O & _). split; auto. split.
  - intros m Hm Hu. destruct (S m Hm) as (m' & Hm' & E1 & E2 & E3).
    assert (EM : m' = m). { destruct (Z.eq_dec m' m); auto. exfalso. apply (Hu m'); auto. congruence. }
    rewrite EM in E3. destruct (C (mx mk m) (my mk m)) as [C1 _].
    { destruct H7 as (_ & _ & H7). apply H7; auto. }
    rewrite C1, E3. reflexivity.
  - intros x y Hi. destruct (C x y Hi) as [C1 C2]. split; auto. exists (L x y). split; auto. split; auto.
    intros HB. destruct (O HB) as [O1 _]. specialize (LB x y Hi). specialize (O1 x y Hi). lia.
Qed.

Lemma watershed_boundaries fuel w h s p q b mk n :
  wf s -> 0 < w -> 0 < h -> w * h <= 1073741824 -> w * h + 1 < Z.of_nat fuel ->
  holds s p b -> image (w * h) b -> holds_pts s q mk -> markers_ok w h mk n ->
  returns_fresh s (watershed fuel w h p q n true s) (fun b' => exists L,
    coloured w h L b' /\ labelling w h n L /\ seeded n mk L /\ connected w h mk L /\ only_boundaries_black w h L).
Proof.
  intros. eapply fresh_impl; [|eapply watershed_ok; eauto].
  intros b' (L & C & LB & S & CN & _ & O). exists L. auto.
Qed.

(** ** Examples *)
Definition stw (l : list Z) (pts : list (f64 * f64)) : st :=
  mkst (upd (upd (fun _ => None) 0 (Some (OBytes (of_list l)))) 1 (Some (OPts (of_list pts)))) 2 (fun _ => true) 0.
Lemma wf_stw l pts : wf (stw l pts).
Proof. intros i Hi; cbn [stw mem nxt] in *. rewrite !upd_other by lia. reflexivity. Qed.

Definition ridge : list Z := [10; 20; 200; 30;  10; 90; 200; 30;  10; 100; 40; 30].
Definition two : list (f64 * f64) := [(d0, d0); (d_of_Z 3, lit 5 4)].
Definition rgba (l : list (Z * Z * Z)) : list Z := flat_map (fun '(r, g, b) => [r; g; b; 255]) l.
Definition R := (255, 0, 0).
Definition G := (0, 255, 0).
Definition K := (0, 0, 0).

Lemma ridge_hyps : wf (stw ridge two) /\ holds (stw ridge two) (Ptr 0) (of_list ridge) /\ image (4 * 3) (of_list ridge) /\
   holds_pts (stw ridge two) (Ptr 1) (of_list two) /\ markers_ok 4 3 (of_list two) 2.
Proof.
  split; [apply wf_stw|]. split; [exists 0; split; reflexivity|]. split; [apply image_of_list; reflexivity|].
  split; [exists 1; split; reflexivity|]. split; [lia|]. split; [vm_compute; congruence|].
  intros m Hm. assert (m = 0 \/ m = 1) as [->| ->] by lia.
  - split; [exists d0, d0; split; [reflexivity|split; reflexivity]|]. vm_compute. repeat split; congruence.
  - split; [exists (d_of_Z 3), (lit 5 4); split; [reflexivity|split; reflexivity]|]. vm_compute. repeat split; congruence.
Qed.

Definition ends : list (f64 * f64) := [(d0, d0); (d_of_Z 3, d0)].
Lemma separation_fails : exists fuel w h s p q b mk n i s' b' x y u v,
  wf s /\ holds s p b /\ image (w * h) b /\ holds_pts s q mk /\ markers_ok w h mk n /\
  watershed fuel w h p q n true s = Ok (Ptr i, s') /\ holds s' (Ptr i) b' /\
  inside w h x y /\ inside w h u v /\ adjacent x y u v /\
  (forall m, 0 <= m < n -> (mx mk m, my mk m) <> (x, y) /\ (mx mk m, my mk m) <> (u, v)) /\
  (pixv b' w 4 x y 0, pixv b' w 4 x y 1, pixv b' w 4 x y 2) = region_colour 0 /\
  (pixv b' w 4 u v 0, pixv b' w 4 u v 1, pixv b' w 4 u v 2) = region_colour 1.
Proof.
  exists 10%nat, 4, 1, (stw [7;7;7;7] ends), (Ptr 0), (Ptr 1), (of_list [7;7;7;7]), (of_list ends), 2.
  destruct (run_split (watershed 10 4 1 (Ptr 0) (Ptr 1) 2 true (stw [7;7;7;7] ends))
    (fun b' => (pixv b' 4 4 1 0 0, pixv b' 4 4 1 0 1, pixv b' 4 4 1 0 2) = region_colour 0 /\
      (pixv b' 4 4 2 0 0, pixv b' 4 4 2 0 1, pixv b' 4 4 2 0 2) = region_colour 1)) as (i & s' & b' & E & M & H1 & H2).
  { vm_compute. split; reflexivity. }
  exists i, s', b', 1, 0, 2, 0.
  split; [apply wf_stw|]. split; [exists 0; split; reflexivity|]. split; [apply image_of_list; reflexivity|].
  split; [exists 1; split; reflexivity|]. split.
  { split; [lia|]. split; [vm_compute; congruence|].
    intros m Hm. assert (m = 0 \/ m = 1) as [->| ->] by lia.
    - split; [exists d0, d0; split; [reflexivity|split; reflexivity]|]. vm_compute. repeat split; congruence.
    - split; [exists (d_of_Z 3), d0; split; [reflexivity|split; reflexivity]|]. vm_compute. repeat split; congruence. }
  split; [exact E|]. split; [exists i; auto|]. split; [unfold inside; lia|]. split; [unfold inside; lia|].
  split; [unfold adjacent; lia|]. split; [|auto].
  intros m Hm. assert (m = 0 \/ m = 1) as [->| ->] by lia; vm_compute; split; congruence.
Qed.

Lemma huge_marker : exists fuel w h s p q b mk n,
  wf s /\ 0 < w /\ 0 < h /\ holds s p b /\ image (w * h) b /\ holds_pts s q mk /\ 0 < n <= blen mk /\
  (forall m, 0 <= m < n -> finite_marker mk m) /\
  watershed fuel w h p q n false s = UB BadCast.
Proof.
  exists 10%nat, 1, 1, (stw [7] [(d_of_Z 3000000000, d0)]), (Ptr 0), (Ptr 1), (of_list [7]), (of_list [(d_of_Z 3000000000, d0)]), 1.
  split; [apply wf_stw|]. split; [lia|]. split; [lia|]. split; [exists 0; split; reflexivity|]. split; [apply image_of_list; reflexivity|].
  split; [exists 1; split; reflexivity|]. split; [cbn; lia|]. split.
  - intros m Hm. replace m with 0 by lia. exists (d_of_Z 3000000000), d0. split; [reflexivity|split; reflexivity].
  - vm_compute. reflexivity.
Qed.

Definition origin : buf (f64 * f64) := of_list [(d0, d0)].
Lemma origin_ok w h : 0 < w -> 0 < h -> markers_ok w h origin 1.
Proof.
  intros Hw Hh. split; [lia|]. split; [cbn; lia|]. intros m Hm. replace m with 0 by lia. split.
  - exists d0, d0. split; [reflexivity|split; reflexivity].
  - change (mx origin 0) with 0. change (my origin 0) with 0. unfold inside; lia.
Qed.
Definition stp (b : buf Z) (pts : buf (f64 * f64)) : st :=
  mkst (upd (upd (fun _ => None) 0 (Some (OBytes b))) 1 (Some (OPts pts))) 2 (fun _ => true) 0.
Lemma wf_stp b pts : wf (stp b pts).
Proof. intros i Hi; cbn [stp mem nxt] in *. rewrite !upd_other by lia. reflexivity. Qed.

Lemma watershed_never_ends : exists w h s p q mk n, wf s /\ dims_ok w h /\ is_i32 w /\ is_i32 h /\ p <> Null /\
  holds_pts s q mk /\ markers_ok w h mk n /\ forall fuel, watershed fuel w h p q n false s = Hang.
Proof.
  exists 65536, 65536, (stp (bconst 4294967296 0) origin), (Ptr 0), (Ptr 1), origin, 1.
  assert (MO : markers_ok 65536 65536 origin 1) by (apply origin_ok; lia).
  assert (HP : holds_pts (stp (bconst 4294967296 0) origin) (Ptr 1) origin) by (exists 1; split; reflexivity).
  split; [apply wf_stp|]. split; [unfold dims_ok, is_u32, SIZE_MAX; lia|]. split; [unfold is_i32; lia|]. split; [unfold is_i32; lia|].
  split; [discriminate|]. split; [exact HP|]. split; [exact MO|].
  intros fuel. eapply watershed_hangs; try exact HP; try (unfold is_i32; lia); try reflexivity.
  - apply wf_stp.
  - discriminate.
  - cbn; lia.
  - exact (proj2 (proj2 MO)).
Qed.

Lemma wraps_hyps : exists w h s p q b mk n, wf s /\ 0 < w /\ 0 < h /\ 1073741824 < w * h <= 2147483647 /\
  holds s p b /\ image (w * h) b /\ holds_pts s q mk /\ markers_ok w h mk n.
Proof.
  exists 32768, 32769, (stp (bconst (32768 * 32769) 5) origin), (Ptr 0), (Ptr 1), (bconst (32768 * 32769) 5), origin, 1.
  split; [apply wf_stp|]. split; [lia|]. split; [lia|]. split; [lia|]. split; [exists 0; split; reflexivity|].
  split; [|split; [exists 1; split; reflexivity|apply origin_ok; lia]].
  split; [reflexivity|]. intros i Hi. exists 5. split; [|unfold byte; lia]. unfold bconst. cbn [bget].  reflexivity.
Qed.
