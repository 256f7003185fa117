(** * Specification of the Haskell binding's functions *)
From Verif Require Import Base F Heap Spec M_Haskell.
From Verif Require Import M_Color M_Geom M_Otsu.

(** [l] lists the bytes of the block [b]. *)
Definition lists (l : list Z) (b : buf Z) : Prop :=
  Z.of_nat (length l) = blen b /\ forall i, 0 <= i < blen b -> nth_error l (Z.to_nat i) = bget b i.

(** From [s] to [s'] only the vector [v] came into being.  It has [n] bytes, which
    satisfy [P] and can all be read; releasing it leaves the memory of [s]. *)
Definition new_vec (s s' : st) (v : vec) (n : Z) (P : buf Z -> Prop) : Prop :=
  v_len v = n /\ exists i b, v_ptr v = Ptr i /\ mem s i = None /\ mem s' i = Some (OBytes b) /\
    (forall j, j <> i -> mem s' j = mem s j) /\ exact_image n b /\ P b /\
    (exists l, read_vec v s' = Ok (l, s') /\ lists l b) /\
    exists s'', finalize v s' = Ok (tt, s'') /\ same_mem s s''.

(** The call returns such a vector, or throws because memory ran out, with no effect. *)
Definition hs_returns (s : st) (run : res (option vec * st)) (n : Z) (P : buf Z -> Prop) : Prop :=
  exists r s', run = Ok (r, s') /\ later s s' /\
    match r with
    | None => same_mem s s' /\ alloc_failed s s'
    | Some v => new_vec s s' v n P
    end.

(** The same for the calls that also return a width and a height. *)
Definition hs_returns_sized (s : st) (run : res (option (Z * Z * vec) * st)) (n : Z -> Z -> Z) (P : Z -> Z -> buf Z -> Prop) : Prop :=
  exists r s', run = Ok (r, s') /\ later s s' /\
    match r with
    | None => same_mem s s' /\ alloc_failed s s'
    | Some (w, h, v) => new_vec s s' v (n w h) (P w h)
    end.

(** The call throws and leaves memory as it was. *)
Definition hs_throws {A} (s : st) (run : res (option A * st)) : Prop :=
  exists s', run = Ok (None, s') /\ later s s' /\ same_mem s s'.

(** The call throws because memory ran out, or returns a vector that reaches beyond
    its memory: reading its elements is undefined. *)
Definition hs_unreadable (s : st) (run : res (option vec * st)) : Prop :=
  exists r s', run = Ok (r, s') /\
    match r with
    | None => same_mem s s' /\ alloc_failed s s'
    | Some v => read_vec v s' = UB OutOfBounds
    end.

(** The binding's functions from a picture to a picture of the same number of pixels,
    four bytes each, beside the C functions they stand for *)
Definition turning : list ((Z -> Z -> vec -> M (option vec)) * (Z -> Z -> ptr -> M ptr)) :=
  [(hs_flipX, flip_x); (hs_flipY, flip_y); (hs_transpose, transpose); (hs_transverse, transverse);
   (hs_rotate90CW, rotate_90_cw); (hs_rotate180, rotate_180); (hs_rotate270CW, rotate_270_cw)].
Definition toning : list ((Z -> Z -> vec -> M (option vec)) * (Z -> Z -> ptr -> M ptr)) :=
  [(hs_grayscale, grayscale); (hs_grayscaleStretch, grayscale_stretch);
   (fun w h v => hs_otsuThreshold w h true v, fun w h p => otsu_threshold_rgba w h true p);
   (fun w h v => hs_otsuThreshold w h false v, fun w h p => otsu_threshold_rgba w h false p)].
