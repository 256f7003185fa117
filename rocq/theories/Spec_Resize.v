(** * Spec_Resize: vocabulary of the resize theorems (C43, C44, C66, C67).

    This file does not mention the model of any FlatCV function. *)
From Verif Require Import Base F Heap Spec.
From Coq Require Import Reals.
Local Open Scope Z_scope.

(** New size of [n] columns (or rows) resized by factor [r]: the product, rounded
    to double, truncated. *)
Definition out_size (n : Z) (r : f64) : Z := Btrunc (dmul (d_of_Z n) r).

(** A factor that fits a picture of [n] columns: positive, finite, with at
    least one and fewer than 2^32 columns in the result. *)
Definition factor_ok (n : Z) (r : f64) : Prop :=
  dlt d0 r = true /\ dfinite r = true /\ dle (dmul (d_of_Z n) r) (d_of_Z 4294967295) = true /\ 1 <= out_size n r.

(** Source column (row) [i] is near output column (row) [o]: pixel centres
    correspond under the scaling, and the distance is at most 1 plus half the size
    of an output pixel (plus a tolerance for rounding). *)
Definition near (r : f64) (o i : Z) : Prop :=
  (Rabs ((IZR i + 1 / 2) - (IZR o + 1 / 2) / B2R r) <= 1 + 1 / (2 * B2R r) + 1 / 1000)%R.

(** Both factors enlarge, or both shrink. *)
Definition same_way (rx ry : f64) : Prop :=
  (dle rx F.d1 = true /\ dle ry F.d1 = true) \/ (dle F.d1 rx = true /\ dle F.d1 ry = true).

(** Bounds on channel [c] of the source pixels near output pixel ([x], [y]) *)
Definition bounded_near (w h : Z) (rx ry : f64) (b : buf Z) (x y c lo hi : Z) : Prop :=
  forall i j v, 0 <= i < w -> 0 <= j < h -> near rx x i -> near ry y j ->
    pix b w 4 i j c = Some v -> lo <= v <= hi.

(** [b'] is the picture [b] of size [w] x [h] resized by [rx], [ry]: all pixels
    are opaque, and every colour lies between the smallest and the largest colour
    of the source pixels near its position.  If one factor enlarges and the
    other shrinks, it may also be 0. *)
Definition resized (w h : Z) (rx ry : f64) (b b' : buf Z) : Prop :=
  exact_image (out_size w rx * out_size h ry * 4) b' /\
  forall x y, 0 <= x < out_size w rx -> 0 <= y < out_size h ry ->
    pix b' (out_size w rx) 4 x y 3 = Some 255 /\
    forall c lo hi, 0 <= c < 3 -> byte lo -> byte hi -> bounded_near w h rx ry b x y c lo hi ->
      exists v, pix b' (out_size w rx) 4 x y c = Some v /\ (lo <= v <= hi \/ (v = 0 /\ ~ same_way rx ry)).

(** Like [returns_fresh], for a function that also reports a size: [run] reports
    [ow] x [oh]. *)
Definition returns_sized (s : st) (run : res (ptr * Z * Z * st)) (ow oh : Z) (P : buf Z -> Prop) : Prop :=
  exists p s', run = Ok ((p, ow, oh), s') /\ later s s' /\
    match p with
    | Null => same_mem s s' /\ alloc_failed s s'
    | Ptr i => mem s i = None /\
               (exists b, mem s' i = Some (OBytes b) /\ P b) /\
               (forall j, j <> i -> mem s' j = mem s j)
    end.
