(** * Spec_Doc: vocabulary of the theorems about finding a document (C92-C95)

    This file does not mention the model of any FlatCV function. *)
From Coq Require Import Reals.
From Verif Require Import Base F Heap Spec Spec_Draw Spec_Watershed Spec_Corners Spec_Detect Spec_Morph.
From Verif Require Spec_Foerstner Spec_Persp.
Local Open Scope Z_scope.

(** ** What is found in a picture (see Spec_Detect for the stages) *)

(** The region in the middle of the reduced picture covers all of it. *)
Definition no_background (w h : Z) (b : buf Z) : Prop :=
  exists ow oh e framed mk L,
    edge_map w h b ow oh e /\ framed_map ow oh e framed mk /\ two_regions (ow + 2) (oh + 2) framed mk L /\
    forall x y, inside ow oh x y -> document L x y.
(** [l] are the peaks in the picture, reduced to [ow] x [oh] pixels. *)
Definition peaks_in (w h : Z) (b : buf Z) (ow oh : Z) (l : list (Z * Z)) : Prop :=
  exists e framed mk L closed resp,
    edge_map w h b ow oh e /\ framed_map ow oh e framed mk /\ two_regions (ow + 2) (oh + 2) framed mk L /\
    closed_document ow oh L closed /\ Spec_Foerstner.corner_picture ow oh 2 closed resp /\ peaks_found ow oh resp l.
Definition few_peaks (w h : Z) (b : buf Z) : Prop := exists ow oh l, peaks_in w h b ow oh l /\ (length l < 4)%nat.
(** [c] are the corners of the document in the picture [b]. *)
Definition corners_of (at2 : f64 -> f64 -> f64) (asin : f64 -> f64) (w h : Z) (b : buf Z) (c : corners) : Prop :=
  exists ow oh l, peaks_in w h b ow oh l /\ (4 <= length l)%nat /\ best_four at2 asin w h ow oh l c.

Definition four (c : corners) : list (f64 * f64) := [tl c; tr c; br c; bl c].

(** [run] looks for the document in the picture [b]: without background the program
    is ended, with fewer than four peaks the behaviour is undefined, and otherwise
    [found] describes what happens, given the corners and the memory once they
    are known: with two new blocks, which nobody can release. *)
Definition looks {A : Type} (at2 : f64 -> f64 -> f64) (asin : f64 -> f64) (w h : Z) (b : buf Z) (s : st) (run : res (A * st))
    (found : corners -> st -> res (A * st) -> Prop) : Prop :=
  (run = Abort /\ no_background w h b) \/
  ((exists u, run = UB u) /\ few_peaks w h b) \/
  exists c s1, corners_of at2 asin w h b c /\ later s s1 /\ leaks_two s s1 /\ found c s1 run.

(** [run] returns a new block holding a [w'] x [h'] picture and changes nothing else. *)
Definition makes (s1 : st) (run : res (ptr * Z * Z * st)) (w' h' : Z) (P : buf Z -> Prop) : Prop :=
  exists q s' b', run = Ok (Ptr q, w', h', s') /\ later s1 s' /\ mem s1 q = None /\ mem s' q = Some (OBytes b') /\ P b' /\
    forall i, i <> q -> mem s' i = mem s1 i.

(** ** Drawing corners *)
Definition red (k : Z) : Z := if k =? 0 then 255 else if k =? 3 then 255 else 0.
(** Some corner is so close to ([x], [y]) that the shape [D] around it covers ([x], [y]). *)
Definition near_corner (D : Z -> Z -> Prop) (c : corners) (x y : Z) : Prop :=
  exists p, In p (four c) /\ D (x - int_part (fst p)) (y - int_part (snd p)).
(** [b'] is [b] with a red disk around every corner, of a radius of 2 % of the
    smaller side. *)
Definition red_disks (w h : Z) (c : corners) (b b' : buf Z) : Prop :=
  exact_image (w * h * 4) b' /\ exists D, disk_like (Z.min w h / 50) D /\
  forall x y k, inside w h x y -> 0 <= k < 4 ->
    (near_corner D c x y -> pix b' w 4 x y k = Some (red k)) /\
    (~ near_corner D c x y -> pix b' w 4 x y k = pix b w 4 x y k).

(** ** Position of the corners *)
Definition on_picture (w h : Z) (p : f64 * f64) : Prop :=
  dfinite (fst p) = true /\ dfinite (snd p) = true /\
  (0 < B2R (fst p) < IZR w)%R /\ (0 < B2R (snd p) < IZR h)%R.
Definition apart_by (dx dy : R) (p q : f64 * f64) : Prop :=
  (dx <= Rabs (B2R (fst p) - B2R (fst q)))%R \/ (dy <= Rabs (B2R (snd p) - B2R (snd q)))%R.
