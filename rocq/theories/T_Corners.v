(** * Theorems C36, C65: sorting corners *)
From Verif Require Import Base F Heap Spec Spec_Corners M_Corners P_Corners.
From Coq Require Import Sorting.Permutation.

(** ** C36: the result is a rearrangement of the points, clockwise around their
    centre starting at the top-left one

    [fuel] bounds the loops that bring an angle into [0, 2 pi); three rounds
    are always enough.  [r] may be the array [q] itself. *)
Theorem C36_sort_corners : forall at2 fuel w h ow oh s q l r rb,
  atan2_ok at2 -> (3 <= fuel)%nat -> wf s ->
  holds_points s q l -> 4 <= Z.of_nat (length l) < 4294967296 ->
  (exists i, r = Ptr i /\ mem s i = Some (OPts rb)) -> Z.of_nat (length l) <= blen rb ->
  writes_corners w h ow oh s r (sort_corners at2 fuel w h ow oh q (Z.of_nat (length l)) r s) (sorted_clockwise at2 l).
Proof. exact sort_corners_ok. Qed.
Print Assumptions C36_sort_corners.

(** Three points are completed to four. *)
Theorem C36_three_any : forall at2 fuel w h ow oh s q a b c r rb,
  atan2_ok at2 -> (3 <= fuel)%nat -> wf s ->
  holds_points s q [a; b; c] -> (exists i, r = Ptr i /\ mem s i = Some (OPts rb)) -> 4 <= blen rb ->
  exists m, writes_corners w h ow oh s r (sort_corners at2 fuel w h ow oh q 3 r s) (sorted_clockwise at2 [a; b; c; m]).
Proof. exact three_any. Qed.
Print Assumptions C36_three_any.

(** Three corners of an upright rectangle are completed by its fourth corner. *)
Theorem C36_three_rect : forall at2 fuel w h ow oh s q a b c d r rb x0 x1 y0 y1,
  atan2_ok at2 -> (3 <= fuel)%nat -> wf s -> x0 < x1 -> y0 < y1 ->
  Z.abs x0 <= 2147483648 -> Z.abs x1 <= 2147483648 -> Z.abs y0 <= 2147483648 -> Z.abs y1 <= 2147483648 ->
  Permutation [a; b; c; d] [(x0, y0); (x1, y0); (x0, y1); (x1, y1)] ->
  holds_points s q [zpt a; zpt b; zpt c] -> (exists i, r = Ptr i /\ mem s i = Some (OPts rb)) -> 4 <= blen rb ->
  writes_corners w h ow oh s r (sort_corners at2 fuel w h ow oh q 3 r s) (sorted_clockwise at2 [zpt a; zpt b; zpt c; zpt d]).
Proof. exact three_rect. Qed.
Print Assumptions C36_three_rect.

Theorem C36_too_few : forall at2 fuel w h ow oh s q n r, 0 <= n < 3 ->
  sort_corners at2 fuel w h ow oh q n r s = Ok (no_corners, s).
Proof. exact too_few. Qed.
Print Assumptions C36_too_few.

(** The corners of a 4x2 rectangle: all hypotheses hold, also those inside
    [sorted_clockwise]. *)
Definition rect42 : list (f64 * f64) := map zpt [(0, 0); (4, 2); (0, 2); (4, 0)].
Example C36_ex :
  (atan2_ok toy_atan2 /\ wf (stp rect42 4) /\ holds_points (stp rect42 4) (Ptr 0) rect42) /\
  top_left rect42 (zpt (0, 0)) /\ (forall p, In p rect42 -> tame p) /\
  (forall i j, (i < j < 4)%nat ->
     apart (turn toy_atan2 (centre rect42) (zpt (0, 0)) (nth i rect42 (d0, d0)))
           (turn toy_atan2 (centre rect42) (zpt (0, 0)) (nth j rect42 (d0, d0)))) /\
  out_points (sort_corners toy_atan2 3 8 8 4 4 (Ptr 0) 4 (Ptr 1) (stp rect42 4)) =
    Some [Some (0, 0); Some (4, 0); Some (4, 2); Some (0, 2)] /\
  out_corners (sort_corners toy_atan2 3 8 8 4 4 (Ptr 0) 4 (Ptr 1) (stp rect42 4)) = [(0, 0); (8, 0); (8, 4); (0, 4)].
Proof.
  split; [split; [exact toy_ok|]; split; [apply wf_stp|apply holds_stp]|].
  split; [apply top_left_first; vm_compute; reflexivity|]. split.
  { intros p Hp. unfold rect42 in Hp. apply in_map_iff in Hp. destruct Hp as (z & <- & Hz).
    destruct Hz as [<-|[<-|[<-|[<-|[]]]]]; apply tame_zpt; unfold sm; cbn; lia. }
  split.
  { intros i j Hij.
    assert (C : forallb (fun ij => negb (dlt (dabs (dsub
        (turn toy_atan2 (centre rect42) (zpt (0, 0)) (nth (fst ij) rect42 (d0, d0)))
        (turn toy_atan2 (centre rect42) (zpt (0, 0)) (nth (snd ij) rect42 (d0, d0))))) (lit 1 1000000)))
        [(0, 1); (0, 2); (0, 3); (1, 2); (1, 3); (2, 3)]%nat = true) by (vm_compute; reflexivity).
    rewrite forallb_forall in C. unfold apart. specialize (C (i, j)). cbn [fst snd] in C.
    destruct (dlt _ _); [|reflexivity]. discriminate C.
    destruct i as [|[|[|[|i]]]], j as [|[|[|[|j]]]]; try (exfalso; lia); cbn [In]; auto 12. }
  split; vm_compute; reflexivity.
Qed.

(** Three of them *)
Example C36_ex3 :
  out_points (sort_corners toy_atan2 3 8 8 4 4 (Ptr 0) 3 (Ptr 1) (stp (map zpt [(4, 2); (0, 0); (0, 2)]) 4)) =
    Some [Some (0, 0); Some (4, 0); Some (4, 2); Some (0, 2)].
Proof. vm_compute; reflexivity. Qed.

(** ** C65: refuted: the result need not start at the top-left point.  Of the
    points (0,0), (1,1), (10,2), (2,10) the first two are seen from the centre in
    the same direction, and the one nearer to the centre is put first. *)
Theorem C65_first_refuted : exists at2 w h ow oh s q l r c s' t i b',
  atan2_ok at2 /\ wf s /\ holds_points s q l /\ length l = 4%nat /\ (forall p, In p l -> tame p) /\ top_left l t /\
  r = Ptr i /\ sort_corners at2 3 w h ow oh q 4 r s = Ok (c, s') /\ mem s' i = Some (OPts b') /\
  bget b' 0 <> Some t /\ tl c <> t.
Proof. exact first_fails. Qed.
Print Assumptions C65_first_refuted.
