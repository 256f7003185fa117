(** * Spec: the vocabulary in which the property theorems are stated.

    This file does not mention the model of any FlatCV function. *)
From Verif Require Import Base F Heap.

(** A byte value. *)
Definition byte (v : Z) : Prop := 0 <= v < 256.

(** Values of type uint32_t / int. *)
Definition is_u32 (v : Z) : Prop := 0 <= v < 4294967296.
Definition is_i32 (v : Z) : Prop := -2147483648 <= v <= 2147483647.

(** The first [n] bytes of buffer [b] exist and are initialised bytes. *)
Definition image (n : Z) (b : buf Z) : Prop :=
  n <= blen b /\ forall i, 0 <= i < n -> exists v, bget b i = Some v /\ byte v.

(** [b] is a buffer of exactly [n] initialised bytes. *)
Definition exact_image (n : Z) (b : buf Z) : Prop := blen b = n /\ image n b.

(** Channel [c] of pixel [(x,y)] of a row-major image of width [w] with [ch]
    channels per pixel. *)
Definition pix (b : buf Z) (w ch x y c : Z) : option Z := bget b ((y * w + x) * ch + c).

(** Same, for initialised images, as a number. *)
Definition pixv (b : buf Z) (w ch x y c : Z) : Z :=
  match pix b w ch x y c with Some v => v | None => 0 end.

(** Two buffers agree on their first [n] bytes. *)
Definition same_bytes (n : Z) (b b' : buf Z) : Prop := forall i, 0 <= i < n -> bget b' i = bget b i.

(** ** Memory *)

(** Well-formed heap: block ids from [nxt] on are not in use. *)
Definition wf (s : st) : Prop := forall i, nxt s <= i -> mem s i = None.

(** Block [p] is live and holds the bytes [b]. *)
Definition holds (s : st) (p : ptr) (b : buf Z) : Prop :=
  exists i, p = Ptr i /\ mem s i = Some (OBytes b).

(** Nothing was allocated, freed or modified. *)
Definition same_mem (s s' : st) : Prop := forall i, mem s' i = mem s i.

(** The allocator moved on without being tampered with. *)
Definition later (s s' : st) : Prop :=
  wf s' /\ orc s' = orc s /\ (tick s <= tick s')%nat /\ nxt s <= nxt s'.

(** Some allocation attempted between [s] and [s'] failed. *)
Definition alloc_failed (s s' : st) : Prop :=
  exists n, (tick s <= n < tick s')%nat /\ orc s n = false.

(** [run] ends normally with NULL and has no effect on memory. *)
Definition returns_null (s : st) (run : res (ptr * st)) : Prop :=
  exists s', run = Ok (Null, s') /\ later s s' /\ same_mem s s'.

(** [run] ends normally, either with NULL because an allocation failed and then
    with memory exactly as before, or with a fresh block whose contents satisfy
    [P], every other block being exactly as before (nothing leaked, nothing
    else touched). *)
Definition returns_fresh (s : st) (run : res (ptr * st)) (P : buf Z -> Prop) : Prop :=
  exists p s', run = Ok (p, s') /\ later s s' /\
    match p with
    | Null => same_mem s s' /\ alloc_failed s s'
    | Ptr i => mem s i = None /\
               (exists b, mem s' i = Some (OBytes b) /\ P b) /\
               (forall j, j <> i -> mem s' j = mem s j)
    end.

(** [calls f w h b b']: some successful call [f(w,h,data)], in some heap in
    which [data] holds [b], returned a block holding [b'].  Used in hypotheses,
    so it ranges over all heaps and all call histories. *)
Definition calls (f : Z -> Z -> ptr -> M ptr) (w h : Z) (b b' : buf Z) : Prop :=
  exists s p q s', wf s /\ holds s p b /\ f w h p s = Ok (Ptr q, s') /\ holds s' (Ptr q) b'.

(** Width and height of an RGBA image that fits in the address space. *)
Definition dims_ok (w h : Z) : Prop :=
  is_u32 w /\ is_u32 h /\ 0 < w /\ 0 < h /\ w * h * 4 <= SIZE_MAX.

(** ** Gray values *)

(** The documented luma of a colour: (76 R + 150 G + 30 B) / 256, rounded down. *)
Definition luma (r g b : Z) : Z := (76 * r + 150 * g + 30 * b) / 256.

(** Luma of pixel [(x,y)] of an RGBA image of width [w]. *)
Definition gray_at (b : buf Z) (w x y : Z) : Z :=
  luma (pixv b w 4 x y 0) (pixv b w 4 x y 1) (pixv b w 4 x y 2).

(** Pixel [(x,y)] of RGBA image [b] is the opaque gray [g]. *)
Definition opaque_gray (b : buf Z) (w x y g : Z) : Prop :=
  pix b w 4 x y 0 = Some g /\ pix b w 4 x y 1 = Some g /\
  pix b w 4 x y 2 = Some g /\ pix b w 4 x y 3 = Some 255.

(** ** Counting *)

(** Number of indices [0 <= i < n] with [P i]. *)
Fixpoint count_nat (P : Z -> bool) (n : nat) : Z :=
  match n with
  | O => 0
  | S m => count_nat P m + (if P (Z.of_nat m) then 1 else 0)
  end.
Definition count (P : Z -> bool) (n : Z) : Z := count_nat P (Z.to_nat n).

(** Number of pixels [(x,y)] of a [w] by [h] image with [P x y]. *)
Definition count_px (w h : Z) (P : Z -> Z -> bool) : Z :=
  count (fun i => P (i mod w) (i / w)) (w * h).
