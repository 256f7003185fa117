(** * Spec_Peaks: vocabulary of the corner peak theorems (C35, C64).

    This file does not mention the model of any FlatCV function. *)
From Verif Require Import Base F Heap Spec.
From Coq Require Import Sorting.Sorted.

(** Corner strength and roundness of pixel [(x,y)] in a response image, which has
    two bytes per pixel. *)
Definition strength (b : buf Z) (w : Z) (p : Z * Z) : Z := pixv b w 2 (fst p) (snd p) 0.
Definition roundness (b : buf Z) (w : Z) (p : Z * Z) : Z := pixv b w 2 (fst p) (snd p) 1.

(** [v/255], computed in double, is greater than the threshold [t]. *)
Definition exceeds (v : Z) (t : f64) : Prop := dlt t (ddiv (d_of_Z v) (d_of_Z 255)) = true.

(** [p] is an inner pixel, both of its values exceed their threshold, its strength
    is not zero and none of its eight neighbours is stronger. *)
Definition local_max (w h : Z) (b : buf Z) (acc rnd : f64) (p : Z * Z) : Prop :=
  1 <= fst p < w - 1 /\ 1 <= snd p < h - 1 /\
  exceeds (strength b w p) acc /\ exceeds (roundness b w p) rnd /\ strength b w p <> 0 /\
  forall u v, -1 <= u <= 1 -> -1 <= v <= 1 -> strength b w (fst p + u, snd p + v) <= strength b w p.

(** Square of the distance of two pixels. *)
Definition dist2 (p q : Z * Z) : Z :=
  (fst p - fst q) * (fst p - fst q) + (snd p - snd q) * (snd p - snd q).

(** Row-major order of pixels. *)
Definition before (p q : Z * Z) : Prop := snd p < snd q \/ (snd p = snd q /\ fst p < fst q).

(** [p] is stronger than [q], or equally strong and comes first. *)
Definition outranks (b : buf Z) (w : Z) (p q : Z * Z) : Prop :=
  strength b w q < strength b w p \/ (strength b w q = strength b w p /\ before p q).

(** [l] is an answer for the response image [b]: in row-major order, each a local
    maximum above the thresholds, any two at least [md] apart, a local maximum
    is left out only for one closer than [md] that outranks it, and the strongest
    is there. *)
Record peaks_of (w h : Z) (b : buf Z) (md : Z) (acc rnd : f64) (l : list (Z * Z)) : Prop := {
  pk_sorted : StronglySorted before l;
  pk_max : forall p, In p l -> local_max w h b acc rnd p;
  pk_apart : forall p q, In p l -> In q l -> p <> q -> md * md <= dist2 p q;
  pk_dropped : forall p, local_max w h b acc rnd p -> ~ In p l ->
    exists q, local_max w h b acc rnd q /\ dist2 p q < md * md /\ outranks b w q p;
  pk_strongest : forall q, local_max w h b acc rnd q ->
    exists p, In p l /\ forall q, local_max w h b acc rnd q -> strength b w q <= strength b w p
}.

(** [run] returns NULL because an allocation failed, with memory as before, or a
    fresh CornerPeaks whose points are the pixels of a list satisfying [P]: with
    a NULL array when there are none, with a fresh array of exactly that many
    points otherwise.  Nothing else changed. *)
Definition returns_peaks (s : st) (run : res (ptr * st)) (P : list (Z * Z) -> Prop) : Prop :=
  exists p s', run = Ok (p, s') /\ later s s' /\
    match p with
    | Null => same_mem s s' /\ alloc_failed s s'
    | Ptr i => mem s i = None /\ exists l, P l /\
        ((l = [] /\ mem s' i = Some (OPeaks None 0) /\ forall j, j <> i -> mem s' j = mem s j) \/
         (l <> [] /\ exists k pts, k <> i /\ mem s k = None /\
            mem s' i = Some (OPeaks (Some k) (Z.of_nat (length l))) /\ mem s' k = Some (OPts pts) /\
            blen pts = Z.of_nat (length l) /\
            (forall n, (n < length l)%nat ->
               bget pts (Z.of_nat n) = Some (d_of_Z (fst (nth n l (0, 0))), d_of_Z (snd (nth n l (0, 0))))) /\
            forall j, j <> i -> j <> k -> mem s' j = mem s j))
    end.
