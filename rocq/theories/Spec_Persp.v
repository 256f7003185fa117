(** * Spec_Persp: vocabulary of the theorems about perspective transforms (C48, C49).

    This file does not mention the model of any FlatCV function. *)
From Verif Require Import Base F Heap Spec.
From Coq Require Import Reals.
From Flocq Require Import Core.
Local Open Scope Z_scope.

(** The block [p] holds the 3x3 matrix [m], row by row. *)
Definition holds_mat (s : st) (p : ptr) (m : list f64) : Prop :=
  exists i, p = Ptr i /\ mem s i = Some (OMat m).
(** Nine numbers, none of them NaN or infinite *)
Definition matrix (m : list f64) : Prop := length m = 9%nat /\ Forall (fun v => is_finite v = true) m.
Definition entry (m : list f64) (i : nat) : R := B2R (nth i m d0).

(** Where the matrix maps the pixel (x, y), in exact arithmetic *)
Definition scale_at (m : list f64) (x y : Z) : R := (entry m 6 * IZR x + entry m 7 * IZR y + entry m 8)%R.
Definition map_x (m : list f64) (x y : Z) : R := ((entry m 0 * IZR x + entry m 1 * IZR y + entry m 2) / scale_at m x y)%R.
Definition map_y (m : list f64) (x y : Z) : R := ((entry m 3 * IZR x + entry m 4 * IZR y + entry m 5) / scale_at m x y)%R.

(** Neighbour of column (row) [i] in a picture with [n] columns (rows) *)
Definition next (n i : Z) : Z := if i + 1 <? n then i + 1 else i.
(** Bilinear interpolation of channel [c] at the point ([X], [Y]) *)
Definition bilinear (b : buf Z) (w h : Z) (X Y : R) (c : Z) : R :=
  let x0 := Zfloor X in let y0 := Zfloor Y in
  let x1 := next w x0 in let y1 := next h y0 in
  let fx := (X - IZR x0)%R in let fy := (Y - IZR y0)%R in
  (IZR (pixv b w 4 x0 y0 c) * (1 - fx) * (1 - fy) + IZR (pixv b w 4 x1 y0 c) * fx * (1 - fy) +
   IZR (pixv b w 4 x0 y1 c) * (1 - fx) * fy + IZR (pixv b w 4 x1 y1 c) * fx * fy)%R.
Definition within (w h : Z) (X Y : R) : Prop := (0 <= X < IZR w)%R /\ (0 <= Y < IZR h)%R.

(** Pixel ([x], [y]) of the picture [b'] of width [w'] shows the point ([X], [Y]) of
    the picture [b]: interpolated and rounded down, or transparent black if the
    point is outside. *)
Definition shows (b : buf Z) (w h : Z) (X Y : R) (b' : buf Z) (w' x y : Z) : Prop :=
  forall c, 0 <= c < 4 -> exists v, pix b' w' 4 x y c = Some v /\
    (within w h X Y -> (bilinear b w h X Y c - 1 - 1 / 1000000 <= IZR v <= bilinear b w h X Y c + 1 / 1000000)%R) /\
    (~ within w h X Y -> v = 0).

(** A matrix whose coefficients are of a usual size and which maps every pixel of
    a picture of [w] columns and [h] rows to a point that is not too far away *)
Definition tame (m : list f64) (w h : Z) : Prop :=
  matrix m /\
  (forall i, (i = 0 \/ i = 1 \/ i = 3 \/ i = 4)%nat -> (Rabs (entry m i) <= 1024)%R) /\
  (forall i, (i = 2 \/ i = 5)%nat -> (Rabs (entry m i) <= 1048576)%R) /\
  (forall i, (i = 6 \/ i = 7 \/ i = 8)%nat -> (Rabs (entry m i) <= 2)%R) /\
  forall x y, 0 <= x < w -> 0 <= y < h ->
    (1 / 1024 <= Rabs (scale_at m x y))%R /\
    (Rabs (map_x m x y) <= 1000000000)%R /\ (Rabs (map_y m x y) <= 1000000000)%R.

(** A rotation by 180 degrees about the origin, or nearly *)
Definition half_turn (m : list f64) : Prop :=
  entry m 2 = 0%R /\ entry m 5 = 0%R /\
  (Rabs (entry m 0 + 1) < 1 / 100000000)%R /\ (Rabs (entry m 4 + 1) < 1 / 100000000)%R.

(** ** Exact copies *)

(** A matrix of whole numbers that moves pixels without perspective: (x, y) goes to
    (a x + b y + c, d x + e y + f). *)
Definition moves (m : list f64) (a b c d e f : Z) : Prop :=
  matrix m /\ entry m 0 = IZR a /\ entry m 1 = IZR b /\ entry m 2 = IZR c /\
  entry m 3 = IZR d /\ entry m 4 = IZR e /\ entry m 5 = IZR f /\
  entry m 6 = 0%R /\ entry m 7 = 0%R /\ entry m 8 = 1%R.
(** Usual sizes of the six numbers *)
Definition small6 (a b c d e f : Z) : Prop :=
  Z.abs a <= 256 /\ Z.abs b <= 256 /\ Z.abs c <= 1073741824 /\ Z.abs d <= 256 /\ Z.abs e <= 256 /\ Z.abs f <= 1073741824.
(** Pixel ([x], [y]) of [b'] is pixel ([i], [j]) of [b], or transparent black if
    there is no such pixel. *)
Definition copies (b : buf Z) (w h i j : Z) (b' : buf Z) (w' x y : Z) : Prop :=
  forall c, 0 <= c < 4 -> pix b' w' 4 x y c =
    if (0 <=? i) && (i <? w) && (0 <=? j) && (j <? h) then pix b w 4 i j c else Some 0.
(** [s] after the matrix in the block [t] became [m] *)
Definition with_mat (s : st) (t : Z) (m : list f64) : st :=
  mkst (upd (mem s) t (Some (OMat m))) (nxt s) (orc s) (tick s).

(** ** Corners *)

(** The matrix [m] sends the point [p] to the point [q], in homogeneous form: both
    sides of the usual quotients multiplied by the scale. *)
Definition sends (m : list R) (p q : R * R) : Prop :=
  let e i := nth i m 0%R in let w := (e 6%nat * fst p + e 7%nat * snd p + e 8%nat)%R in
  (e 0%nat * fst p + e 1%nat * snd p + e 2%nat = fst q * w)%R /\
  (e 3%nat * fst p + e 4%nat * snd p + e 5%nat = snd q * w)%R.
(** The run returns the static identity matrix and changes nothing. *)
Definition falls_back (identity : ptr) (s : st) (run : res (ptr * st)) : Prop := run = Ok (identity, s).
(** The run returns a new block with a matrix that satisfies [P] and changes no
    other block. *)
Definition returns_matrix (s : st) (run : res (ptr * st)) (P : list f64 -> Prop) : Prop :=
  exists q s' m, run = Ok (Ptr q, s') /\ later s s' /\ mem s q = None /\ mem s' q = Some (OMat m) /\ P m /\
    forall j, j <> q -> mem s' j = mem s j.
(** Nine usable numbers, none above a million, the last being 1 *)
Definition bounded (m : list f64) : Prop :=
  matrix m /\ entry m 8 = 1%R /\ forall i, (i < 9)%nat -> (Rabs (entry m i) <= 1000000)%R.
