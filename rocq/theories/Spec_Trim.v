(** * Spec_Trim: vocabulary for the trim properties *)
From Verif Require Import Base F Heap Spec.

(** Like [returns_fresh], for functions that also report a width and a height. *)
Definition returns_sized (s : st) (run : res (ptr * Z * Z * st)) (P : Z -> Z -> buf Z -> Prop) : Prop :=
  exists p w' h' s', run = Ok (p, w', h', s') /\ later s s' /\
    match p with
    | Null => same_mem s s' /\ alloc_failed s s'
    | Ptr i => mem s i = None /\
               (exists b, mem s' i = Some (OBytes b) /\ P w' h' b) /\
               (forall j, j <> i -> mem s' j = mem s j)
    end.

(** Two pixels differ by at most [tol] in every channel. *)
Definition px_close (tol : Z) (b : buf Z) (w ch x y x' y' : Z) : Prop :=
  forall c, 0 <= c < ch -> Z.abs (pixv b w ch x y c - pixv b w ch x' y' c) <= tol.

(** Column [x] is uniform: every pixel is close to its topmost pixel. *)
Definition col_uniform (tol : Z) (b : buf Z) (w h ch x : Z) : Prop :=
  forall y, 0 <= y < h -> px_close tol b w ch x y x 0.
(** The part [l <= x < r] of row [y] is uniform. *)
Definition row_uniform (tol : Z) (b : buf Z) (w ch l r y : Z) : Prop :=
  forall x, l <= x < r -> px_close tol b w ch x y l y.

(** The box that is left when first uniform columns are dropped from the left
    and from the right, then uniform rows of the rest from the top and from the
    bottom, always keeping one column and one row. *)
Definition trim_box (tol : Z) (b : buf Z) (w h ch l r t bt : Z) : Prop :=
  0 <= l < r /\ r <= w /\ 0 <= t < bt /\ bt <= h /\
  (forall x, 0 <= x < l -> col_uniform tol b w h ch x) /\
  (l = w - 1 \/ ~ col_uniform tol b w h ch l) /\
  (forall x, r <= x < w -> col_uniform tol b w h ch x) /\
  (r = l + 1 \/ ~ col_uniform tol b w h ch (r - 1)) /\
  (forall y, 0 <= y < t -> row_uniform tol b w ch l r y) /\
  (t = h - 1 \/ ~ row_uniform tol b w ch l r t) /\
  (forall y, bt <= y < h -> row_uniform tol b w ch l r y) /\
  (bt = t + 1 \/ ~ row_uniform tol b w ch l r (bt - 1)).

(** [b'] is the part of [b] inside the box. *)
Definition is_box (b : buf Z) (w ch l r t bt : Z) (w' h' : Z) (b' : buf Z) : Prop :=
  w' = r - l /\ h' = bt - t /\ exact_image (w' * h' * ch) b' /\
  forall x y c, 0 <= x < w' -> 0 <= y < h' -> 0 <= c < ch ->
    pix b' w' ch x y c = pix b w ch (l + x) (t + y) c.

(** Some execution of [f] on a [w]x[h] picture [b] returned the [w']x[h'] picture [b']. *)
Definition calls_sized (f : Z -> Z -> ptr -> M (ptr * Z * Z)) (w h : Z) (b : buf Z) (w' h' : Z) (b' : buf Z) : Prop :=
  exists s p q s', wf s /\ holds s p b /\ f w h p s = Ok (q, w', h', s') /\ holds s' q b'.
