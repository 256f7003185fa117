(** * Spec_Corners: vocabulary of the corner sorting theorems (C36, C65).

    This file does not mention the model of any FlatCV function. *)
From Verif Require Import Base F Heap Spec.
From Coq Require Import Sorting.Permutation Reals.
Local Open Scope Z_scope.

(** include/1_types.h:12-17 [Corners] *)
Record corners := mkc { tl : f64 * f64; tr : f64 * f64; br : f64 * f64; bl : f64 * f64 }.
Definition no_corners : corners := mkc (d0, d0) (d0, d0) (d0, d0) (d0, d0).

(** The constants M_PI and 2.0 * M_PI *)
Definition dpi : f64 := binary_normalize 53 1024 _ _ mode_NE 884279719003555 (-48) false.
Definition d2pi : f64 := dmul (d_of_Z 2) dpi.

(** What is assumed of the C library's atan2: the result is between -pi and pi,
    or NaN for a NaN argument. *)
Definition atan2_ok (at2 : f64 -> f64 -> f64) : Prop := forall y x,
  (is_nan (at2 y x) = true /\ (is_nan y = true \/ is_nan x = true)) \/
  (dfinite (at2 y x) = true /\ (Rabs (B2R (at2 y x)) <= B2R dpi)%R).

(** Block [p] holds an array of points that starts with [l]. *)
Definition holds_points (s : st) (p : ptr) (l : list (f64 * f64)) : Prop :=
  exists i b, p = Ptr i /\ mem s i = Some (OPts b) /\ Z.of_nat (length l) <= blen b /\
    forall k, (k < length l)%nat -> bget b (Z.of_nat k) = Some (nth k l (d0, d0)).

(** Centre of gravity, computed in double. *)
Definition mean (xs : list f64) : f64 := ddiv (fold_left dadd xs d0) (d_of_Z (Z.of_nat (length xs))).
Definition centre (l : list (f64 * f64)) : f64 * f64 := (mean (map fst l), mean (map snd l)).

(** Direction of [p] as seen from [c], between 0 and 2 pi, clockwise from the
    positive x axis (y points down). *)
Definition direction (at2 : f64 -> f64 -> f64) (c p : f64 * f64) : f64 :=
  let a := at2 (dsub (snd p) (snd c)) (dsub (fst p) (fst c)) in
  if dlt a d0 then dadd a d2pi else a.

(** Angle by which one turns clockwise around [c] to get from [t] to [p]. *)
Definition turn (at2 : f64 -> f64 -> f64) (c t p : f64 * f64) : f64 :=
  let a := dsub (direction at2 c p) (direction at2 c t) in
  let a := if dlt a d0 then dadd a d2pi else a in
  if dle d2pi a then dsub a d2pi else a.

(** [t] is the first of the points of [l] with the smallest x + y. *)
Definition coord_sum (p : f64 * f64) : f64 := dadd (fst p) (snd p).
Definition top_left (l : list (f64 * f64)) (t : f64 * f64) : Prop :=
  exists l1 l2, l = l1 ++ t :: l2 /\
    (forall q, In q l1 -> dlt (coord_sum t) (coord_sum q) = true) /\
    (forall q, In q l2 -> dlt (coord_sum q) (coord_sum t) = false).

(** A point with coordinates of at most 2^31 in absolute value. *)
Definition tame (p : f64 * f64) : Prop :=
  dfinite (fst p) = true /\ dfinite (snd p) = true /\
  (Rabs (B2R (fst p)) <= 2147483648)%R /\ (Rabs (B2R (snd p)) <= 2147483648)%R.

(** Two angles differ by at least 10^-6. *)
Definition apart (a b : f64) : Prop := dlt (dabs (dsub a b)) (lit 1 1000000) = false.

(** The answer for points [l]: a rearrangement of them; if all are tame and seen
    from the centre in directions at least 10^-6 apart, the rearrangement
    starts at the top-left one and goes around clockwise. *)
Definition sorted_clockwise (at2 : f64 -> f64 -> f64) (l l' : list (f64 * f64)) : Prop :=
  Permutation l l' /\
  forall t, top_left l t -> Z.of_nat (length l) <= 1048576 -> (forall p, In p l -> tame p) ->
    (forall i j, (i < j < length l)%nat ->
       apart (turn at2 (centre l) t (nth i l (d0, d0))) (turn at2 (centre l) t (nth j l (d0, d0)))) ->
    nth 0 l' (d0, d0) = t /\
    forall i j, (i < j < length l')%nat ->
      dlt (turn at2 (centre l) t (nth i l' (d0, d0))) (turn at2 (centre l) t (nth j l' (d0, d0))) = true.

(** Point [p] scaled by width/out_width and height/out_height. *)
Definition scaled (w h ow oh : Z) (p : f64 * f64) : f64 * f64 :=
  (dmul (fst p) (ddiv (d_of_Z w) (d_of_Z ow)), dmul (snd p) (ddiv (d_of_Z h) (d_of_Z oh))).

(** [run] yields zeros because an allocation failed, with memory as before; or it
    writes points [l'] with [P l'] to the result array [r], leaves the rest of
    that array and everything else alone, and yields the first four of them
    scaled. *)
Definition writes_corners (w h ow oh : Z) (s : st) (r : ptr) (run : res (corners * st))
  (P : list (f64 * f64) -> Prop) : Prop :=
  exists c s', run = Ok (c, s') /\ later s s' /\
    ((same_mem s s' /\ alloc_failed s s' /\ c = no_corners) \/
     exists i b b' l', r = Ptr i /\ mem s i = Some (OPts b) /\ mem s' i = Some (OPts b') /\
       (forall j, j <> i -> mem s' j = mem s j) /\ P l' /\ blen b' = blen b /\
       (forall k, bget b' k = if (0 <=? k) && (k <? Z.of_nat (length l')) then Some (nth (Z.to_nat k) l' (d0, d0)) else bget b k) /\
       c = mkc (scaled w h ow oh (nth 0 l' (d0, d0))) (scaled w h ow oh (nth 1 l' (d0, d0)))
               (scaled w h ow oh (nth 2 l' (d0, d0))) (scaled w h ow oh (nth 3 l' (d0, d0)))).

(** Pixel coordinates as a point. *)
Definition zpt (p : Z * Z) : f64 * f64 := (d_of_Z (fst p), d_of_Z (snd p)).
