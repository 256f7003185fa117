(** * Heap: malloc/calloc/free and typed heap blocks.

    Models the C allocator.  A state maps block ids to live objects.  Every
    allocation consults an arbitrary oracle, so a theorem quantified over states
    is quantified over all patterns of allocation failure. *)
From Verif Require Import Base F.

(** Heap objects, by element type. *)
Inductive obj :=
| OBytes (b : buf Z)            (* uint8_t[] *)
| OInts (b : buf Z)             (* int32_t[] / uint32_t[] / bool[] *)
| ODbl (b : buf f64)            (* double[] *)
| OFlt (b : buf f32)            (* float[] *)
| OPts (b : buf (f64 * f64))    (* Point2D[] *)
| OPeaks (pts : option Z) (count : Z)  (* CornerPeaks *)
| OMat (m : list f64).          (* Matrix3x3 *)

Inductive ptr := Null | Ptr (id : Z).

Definition is_null (p : ptr) : bool := match p with Null => true | Ptr _ => false end.

Record st := mkst {
  mem : Z -> option obj;   (* live blocks *)
  nxt : Z;                 (* next fresh block id *)
  orc : nat -> bool;       (* does the n-th allocation succeed? *)
  tick : nat               (* number of allocations attempted so far *)
}.

Definition M (A : Type) := st -> res (A * st).
Definition ret {A} (a : A) : M A := fun s => Ok (a, s).
Definition bindM {A B} (m : M A) (k : A -> M B) : M B :=
  fun s => match m s with Ok (a, s') => k a s' | UB u => UB u | Hang => Hang | Abort => Abort end.
Definition lift {A} (r : res A) : M A :=
  fun s => match r with Ok a => Ok (a, s) | UB u => UB u | Hang => Hang | Abort => Abort end.

Declare Scope heap_scope.
Delimit Scope heap_scope with heap.
Notation "x <-- m ;; k" := (bindM m (fun x => k))
  (at level 61, m at next level, right associativity) : heap_scope.
Global Open Scope heap_scope.

Definition upd {A} (f : Z -> option A) (i : Z) (v : option A) : Z -> option A :=
  fun j => if j =? i then v else f j.

(** malloc/calloc of an object with initial contents [o]. *)
Definition alloc (o : obj) : M ptr :=
  fun s =>
    if orc s (tick s)
    then Ok (Ptr (nxt s), mkst (upd (mem s) (nxt s) (Some o)) (nxt s + 1) (orc s) (S (tick s)))
    else Ok (Null, mkst (mem s) (nxt s) (orc s) (S (tick s))).

Definition malloc_bytes (n : Z) : M ptr := alloc (OBytes (bnew n)).

(** free: NULL is a no-op, anything not live is undefined behaviour. *)
Definition free (p : ptr) : M unit :=
  match p with
  | Null => ret tt
  | Ptr i => fun s =>
      match mem s i with
      | Some _ => Ok (tt, mkst (upd (mem s) i None) (nxt s) (orc s) (tick s))
      | None => UB BadFree
      end
  end.

Definition get_obj (p : ptr) : M obj :=
  match p with
  | Null => fun _ => UB NullDeref
  | Ptr i => fun s => match mem s i with Some o => Ok (o, s) | None => UB UseAfterFree end
  end.

Definition put_obj (p : ptr) (o : obj) : M unit :=
  match p with
  | Null => fun _ => UB NullDeref
  | Ptr i => fun s => match mem s i with
      | Some _ => Ok (tt, mkst (upd (mem s) i (Some o)) (nxt s) (orc s) (tick s))
      | None => UB UseAfterFree end
  end.

(** Contents of a byte block, and overwriting them. *)
Definition get_bytes (p : ptr) : M (buf Z) :=
  o <-- get_obj p ;;
  match o with OBytes b => ret b | _ => fun _ => UB BadType end.
Definition put_bytes (p : ptr) (b : buf Z) : M unit := put_obj p (OBytes b).

Definition get_ints (p : ptr) : M (buf Z) :=
  o <-- get_obj p ;;
  match o with OInts b => ret b | _ => fun _ => UB BadType end.
Definition get_dbl (p : ptr) : M (buf f64) :=
  o <-- get_obj p ;;
  match o with ODbl b => ret b | _ => fun _ => UB BadType end.
Definition get_flt (p : ptr) : M (buf f32) :=
  o <-- get_obj p ;;
  match o with OFlt b => ret b | _ => fun _ => UB BadType end.
Definition get_pts (p : ptr) : M (buf (f64 * f64)) :=
  o <-- get_obj p ;;
  match o with OPts b => ret b | _ => fun _ => UB BadType end.
