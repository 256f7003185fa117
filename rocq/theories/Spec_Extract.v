(** * Spec_Extract: vocabulary of the theorems about extracting a document (C94, C95)

    Of the model only fcv_calculate_perspective_transform is mentioned, for which
    see C48. *)
From Coq Require Import Reals.
From Verif Require Import Base F Heap Spec Spec_Persp Spec_Corners M_Persp.
Local Open Scope Z_scope.

(** [m], in block [pm], is the matrix that fcv_calculate_perspective_transform
    finds for mapping the corners of an [ow] x [oh] picture to the corners [c]. *)
Definition corner_matrix (identity : ptr) (c : Spec_Corners.corners) (ow oh : Z) (s : st) (pm : Z) (m : list f64) : Prop :=
  let right := d_of_Z (ow - 1) in let bottom := d_of_Z (oh - 1) in
  exists s', calculate_perspective_transform identity
    (Some (mkcorners (d0, d0) (right, d0) (right, bottom) (d0, bottom)))
    (Some (mkcorners (tl c) (tr c) (br c) (bl c))) s = Ok (Ptr pm, s') /\ mem s' pm = Some (OMat m).

(** Every pixel of the [ow] x [oh] picture [b'] shows the point of [b] that the matrix
    maps it to (as in C49). *)
Definition sampled (m : list f64) (w h : Z) (b : buf Z) (ow oh : Z) (b' : buf Z) : Prop :=
  exact_image (ow * oh * 4) b' /\
  forall x y, 0 <= x < ow -> 0 <= y < oh -> exists X Y,
    (Rabs (X - map_x m x y) <= (1 + Rabs (map_x m x y)) / 10000)%R /\
    (Rabs (Y - map_y m x y) <= (1 + Rabs (map_y m x y)) / 10000)%R /\
    shows b w h X Y b' ow x y.

Definition identity_matrix : list f64 := [d1; d0; d0; d0; d1; d0; d0; d0; d1].
Definition like_identity (m : list f64) : Prop := forall i, (i < 9)%nat -> entry m i = entry identity_matrix i.

(** [run] yields the part of the [w] x [h] picture [b] between the corners [c] as a
    picture of [ow] x [oh] pixels in a new block, provided that the matrix is tame
    (see C49); other blocks are as before. *)
Definition extracts (identity : ptr) (c : Spec_Corners.corners) (w h : Z) (b : buf Z) (ow oh : Z) (s : st) (run : res (ptr * Z * Z * st)) : Prop :=
  exists pm m, corner_matrix identity c ow oh s pm m /\
    (Spec_Persp.tame m ow oh -> ~ half_turn m -> exists q s' b',
      run = Ok (Ptr q, ow, oh, s') /\ later s s' /\ mem s q = None /\ mem s' q = Some (OBytes b') /\ sampled m w h b ow oh b' /\
      (forall i, i <> q -> i <> pm -> mem s' i = mem s i) /\
      (** the matrix is released, unless it happens to be the identity *)
      (mem s' pm = mem s pm \/ like_identity m)).

(** What is assumed of the C library's pow(x, 2) *)
Definition pow2_ok (pow2 : f64 -> f64) : Prop := forall x, dfinite x = true -> (Rabs (B2R x) <= 2147483648)%R ->
  dfinite (pow2 x) = true /\ (0 <= B2R (pow2 x))%R /\
  (Rabs (B2R (pow2 x) - B2R x * B2R x) <= B2R x * B2R x / 1000000000000000 + 1 / 1000000000000)%R.

(** Distance of two points *)
Definition dist (p q : f64 * f64) : R :=
  let dx := (B2R (fst p) - B2R (fst q))%R in let dy := (B2R (snd p) - B2R (snd q))%R in sqrt (dx * dx + dy * dy).
(** [n] is [d] rounded, but at least 100. *)
Definition size_for (d : R) (n : Z) : Prop := exists k, (Rabs (IZR k - d) <= 51 / 100)%R /\ n = Z.max 100 k.
(** The size of the document with corners [c]: the longer ones of opposite sides *)
Definition document_size (c : Spec_Corners.corners) (ow oh : Z) : Prop :=
  size_for (Rmax (dist (tl c) (tr c)) (dist (bl c) (br c))) ow /\
  size_for (Rmax (dist (tl c) (bl c)) (dist (tr c) (br c))) oh.
(** Sizes for which the transformation is defined *)
Definition fair_size (ow oh : Z) : Prop := 0 < ow <= 32768 /\ 0 < oh <= 32768 /\ ow * oh <= 536870911.
