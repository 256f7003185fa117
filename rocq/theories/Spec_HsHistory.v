(** * Specification: a program that uses the Haskell binding *)
From Verif Require Import Base F Heap Spec M_Haskell Spec_Haskell.

(** What the program does with its vectors: call the function [F], which stands for
    the C function [f], on the [k]-th vector, keeping the result as a further vector;
    or drop the [k]-th vector, which the garbage collector then releases. *)
Inductive event :=
| Call (F : Z -> Z -> vec -> M (option vec)) (f : Z -> Z -> ptr -> M ptr) (w h : Z) (k : nat)
| Drop (k : nat).

Fixpoint without {A} (k : nat) (l : list A) : list A :=
  match l, k with
  | [], _ => []
  | _ :: l, O => l
  | x :: l, S k => x :: without k l
  end.

(** The program passes a size (Word32) only with as many bytes. *)
Definition fitting (w h n : Z) : bool :=
  (0 <=? w) && (w <? 4294967296) && (0 <=? h) && (h <? 4294967296) && (w * h <? 1073741824) && (w * h * 4 =? n).

Definition step (e : event) (vs : list vec) : M (list vec) :=
  match e with
  | Call F _ w h k =>
      match nth_error vs k with
      | Some v =>
          if fitting w h (v_len v) then
            r <-- F w h v ;; ret (match r with Some v' => vs ++ [v'] | None => vs end)
          else ret vs
      | None => ret vs
      end
  | Drop k =>
      match nth_error vs k with
      | Some v => _ <-- finalize v ;; ret (without k vs)
      | None => ret vs
      end
  end.

Fixpoint run (es : list event) (vs : list vec) : M (list vec) :=
  match es with
  | [] => ret vs
  | e :: es => vs <-- step e vs ;; run es vs
  end.

(** The same on the vectors' contents alone; [full]: memory can run out. *)
Definition means (full : Prop) (e : event) (bs bs' : list (buf Z)) : Prop :=
  match e with
  | Call _ f w h k =>
      match nth_error bs k with
      | Some b =>
          if fitting w h (blen b) then
            (exists b', calls f w h b b' /\ bs' = bs ++ [b']) \/ (bs' = bs /\ (w = 0 \/ h = 0 \/ full))
          else bs' = bs
      | None => bs' = bs
      end
  | Drop k => bs' = without k bs
  end.

Inductive amounts (full : Prop) : list event -> list (buf Z) -> list (buf Z) -> Prop :=
| am_nil bs : amounts full [] bs bs
| am_cons e es bs bs1 bs2 : means full e bs bs1 -> amounts full es bs1 bs2 -> amounts full (e :: es) bs bs2.

(** The live vector [v] has the bytes [b]. *)
Definition vec_of (s : st) (v : vec) (b : buf Z) : Prop :=
  holds s (v_ptr v) b /\ exact_image (v_len v) b.

(** The functions called are those of [turning] and [toning]. *)
Definition known (e : event) : Prop :=
  match e with Call F f _ _ _ => In (F, f) (turning ++ toning) | Drop _ => True end.
