(** * Specification vocabulary: the table of operations *)
From Verif Require Import Base Heap M_Parse M_Table.

(** Every allocation from now on succeeds; block ids not yet given out are free. *)
Definition plenty (s : tst) : Prop := (forall n, torc s n = true) /\ (forall x, tnxt s <= x -> tmem s x = None).
(** The same blocks are live, with the same contents. *)
Definition same_blocks (s s' : tst) : Prop := forall x, tmem s' x = tmem s x.
(** Entries added one by one *)
Fixpoint add_all (p : ptr) (l : list pipeline_op) : T unit :=
  match l with [] => tret tt | o :: l => _ <~ add_operation p o ;; add_all p l end.
(** A state in which nothing is allocated yet, and allocation number [k] fails. *)
Definition st_fail (k : nat) : tst := mktst (fun _ => None) 0 (fun n => negb (Nat.eqb n k)) 0.
