(** * Base: outcomes, fixed-width integers, buffers and loops.

    This file fixes the meaning of the C fragment used by FlatCV.  It models no
    particular C function; it is the common vocabulary of all [M_*.v] files.
    Assumed data model: LP64 (32-bit int, 64-bit size_t). *)

From Coq Require Export ZArith Lia Bool List ZifyBool.
Export ListNotations.
Global Open Scope Z_scope.

(** ** Outcomes *)

(** Kinds of undefined behaviour. *)
Inductive ub :=
| OutOfBounds      (* access outside an object *)
| Uninit           (* read of an indeterminate value *)
| SignedOverflow   (* signed int arithmetic out of range *)
| DivByZero        (* integer division or modulo by zero *)
| BadCast          (* floating value not representable in the target integer *)
| BadFree          (* free of a pointer that is not a live block *)
| UseAfterFree     (* access through a dead pointer *)
| NullDeref        (* access through NULL *)
| BadShift         (* signed shift out of range *)
| BadType.         (* access to a block through a wrong element type *)

(** Result of running a piece of C code. [Hang]: the code never terminates.
    [Abort]: the process ends (exit or failed assertion). *)
Inductive res (A : Type) :=
| Ok (a : A)
| UB (u : ub)
| Hang
| Abort.
Arguments Ok {A} a.
Arguments UB {A} u.
Arguments Hang {A}.
Arguments Abort {A}.

Definition bind {A B} (r : res A) (k : A -> res B) : res B :=
  match r with
  | Ok a => k a
  | UB u => UB u
  | Hang => Hang
  | Abort => Abort
  end.

Declare Scope res_scope.
Delimit Scope res_scope with res.
Notation "x <- e ;; k" := (bind e (fun x => k))
  (at level 61, e at next level, right associativity) : res_scope.
Notation "' p <- e ;; k" := (bind e (fun p => k))
  (at level 61, p pattern, e at next level, right associativity) : res_scope.
Global Open Scope res_scope.

Definition guard (b : bool) (u : ub) : res unit := if b then Ok tt else UB u.

(** ** Fixed-width integers *)

Definition U8  : Z := 256.
Definition U16 : Z := 65536.
Definition U32 : Z := 4294967296.
Definition U64 : Z := 18446744073709551616.
Definition SIZE_MAX : Z := 18446744073709551615.
Definition INT_MAX : Z := 2147483647.
Definition INT_MIN : Z := -2147483648.

Definition u8  (x : Z) : Z := x mod U8.
Definition u16 (x : Z) : Z := x mod U16.
Definition u32 (x : Z) : Z := x mod U32.
Definition u64 (x : Z) : Z := x mod U64.

(** Conversion to int32_t (gcc/clang: modular, implementation-defined). *)
Definition s32 (x : Z) : Z := (x + 2147483648) mod U32 - 2147483648.

(** Signed 32-bit arithmetic: overflow is undefined behaviour. *)
Definition ck32 (x : Z) : res Z :=
  if (INT_MIN <=? x) && (x <=? INT_MAX) then Ok x else UB SignedOverflow.

(** Unsigned 32-bit division. *)
Definition udiv (a b : Z) : res Z := if b =? 0 then UB DivByZero else Ok (a / b).

(** ** Buffers *)

(** A C array object: [bget b i = None] means byte [i] is indeterminate. *)
Record buf (A : Type) := mkbuf { blen : Z; bget : Z -> option A }.
Arguments mkbuf {A}.
Arguments blen {A}.
Arguments bget {A}.

Definition inb {A} (b : buf A) (i : Z) : bool := (0 <=? i) && (i <? blen b).

Definition load {A} (b : buf A) (i : Z) : res A :=
  if inb b i then
    match bget b i with Some v => Ok v | None => UB Uninit end
  else UB OutOfBounds.

Definition bset {A} (b : buf A) (i : Z) (v : A) : buf A :=
  mkbuf (blen b) (fun j => if j =? i then Some v else bget b j).

Definition store {A} (b : buf A) (i : Z) (v : A) : res (buf A) :=
  if inb b i then Ok (bset b i v) else UB OutOfBounds.

(** Freshly allocated, uninitialised object. *)
Definition bnew {A} (n : Z) : buf A := mkbuf n (fun _ => None).
(** Object whose elements all have value [v] (calloc, memset). *)
Definition bconst {A} (n : Z) (v : A) : buf A := mkbuf n (fun _ => Some v).
(** memset of the first [n] elements. *)
Definition bfill {A} (b : buf A) (n : Z) (v : A) : res (buf A) :=
  if n <=? blen b
  then Ok (mkbuf (blen b) (fun j => if (0 <=? j) && (j <? n) then Some v else bget b j))
  else UB OutOfBounds.
(** Buffer holding the elements of a list (used for literals and tests). *)
Definition of_list {A} (l : list A) : buf A :=
  mkbuf (Z.of_nat (length l)) (fun i => if i <? 0 then None else nth_error l (Z.to_nat i)).
Definition to_list {A} (b : buf A) : list (option A) :=
  map (fun k => bget b (Z.of_nat k)) (seq 0 (Z.to_nat (blen b))).

(** memcpy of [n] elements from [src+so] to [dst+do_] (distinct objects).  The
    whole range must be inside both objects.  Copying indeterminate bytes is
    allowed, as in C. *)
Definition bcopy {A} (dst : buf A) (do_ : Z) (src : buf A) (so n : Z) : res (buf A) :=
  if n =? 0 then Ok dst else
  if (0 <=? do_) && (0 <=? so) && (do_ + n <=? blen dst) && (so + n <=? blen src) && (0 <=? n)
  then Ok (mkbuf (blen dst)
         (fun j => if (do_ <=? j) && (j <? do_ + n) then bget src (j - do_ + so) else bget dst j))
  else UB OutOfBounds.

(** ** Loops *)

Fixpoint iter_n {S : Type} (n : nat) (i : Z) (body : Z -> S -> res S) (s : S) : res S :=
  match n with
  | O => Ok s
  | Datatypes.S n' => s' <- body i s ;; iter_n n' (i + 1) body s'
  end.

(** [for (i = lo; i < hi; i++) body] where [i] does not wrap. *)
Definition for_ {S : Type} (lo hi : Z) (body : Z -> S -> res S) (s : S) : res S :=
  iter_n (Z.to_nat (hi - lo)) lo body s.

(** [for (uint32_t i = lo; i < hi; i++) body] where [hi] is a size_t: with
    [hi >= 2^32] the counter wraps and the loop never ends (unless the body
    goes wrong first). *)
Definition for_u32 {S : Type} (lo hi : Z) (body : Z -> S -> res S) (s : S) : res S :=
  if hi <? U32 then for_ lo hi body s
  else s' <- for_ lo U32 body s ;; Hang.

(** Loop with early exit: the body yields [inl s] to continue, [inr r] to
    leave the loop (break/return) with [r]. *)
Fixpoint iter_brk {S R : Type} (n : nat) (i : Z) (body : Z -> S -> res (S + R)) (s : S)
  : res (S + R) :=
  match n with
  | O => Ok (inl s)
  | Datatypes.S n' =>
      r <- body i s ;;
      match r with
      | inl s' => iter_brk n' (i + 1) body s'
      | inr x => Ok (inr x)
      end
  end.
Definition for_brk {S R : Type} (lo hi : Z) (body : Z -> S -> res (S + R)) (s : S) : res (S + R) :=
  iter_brk (Z.to_nat (hi - lo)) lo body s.

(** [while] loop: [inl s] = next iteration, [inr r] = loop left with [r].
    Running out of [fuel] is [Hang]; theorems show that the fuel suffices or
    that no fuel does. *)
Fixpoint while_ {S R : Type} (fuel : nat) (body : S -> res (S + R)) (s : S) : res R :=
  match fuel with
  | O => Hang
  | Datatypes.S n =>
      r <- body s ;;
      match r with
      | inl s' => while_ n body s'
      | inr x => Ok x
      end
  end.

(** [while] loop with up to 2^k iterations (cheap to evaluate for large k). *)
Fixpoint wsteps {S R : Type} (k : nat) (body : S -> res (S + R)) (s : S) : res (S + R) :=
  match k with
  | O => body s
  | Datatypes.S k' =>
      r <- wsteps k' body s ;;
      match r with
      | inl s' => wsteps k' body s'
      | inr x => Ok (inr x)
      end
  end.
Definition while2 {S R : Type} (k : nat) (body : S -> res (S + R)) (s : S) : res R :=
  r <- wsteps k body s ;;
  match r with inr x => Ok x | inl _ => Hang end.
