(** * Specification of the Haskell binding's functions about documents *)
From Verif Require Import Base F Heap Spec M_Haskell Spec_Haskell Spec_Persp Spec_Corners Spec_Extract.

(** [run] returns, packed by [pack], a vector that shows the document (as [extracts]
    says of the C function) and can be read to the end. *)
Definition hs_extracts {A} (pack : vec -> A) (identity : ptr) (c : Spec_Corners.corners) (w h : Z) (b : buf Z) (ow oh : Z) (s : st)
    (run : res (option A * st)) : Prop :=
  exists pm m, corner_matrix identity c ow oh s pm m /\
    (Spec_Persp.tame m ow oh -> ~ half_turn m -> exists v q s' b' l,
      run = Ok (Some (pack v), s') /\ v_ptr v = Ptr q /\ v_len v = ow * oh * 4 /\ later s s' /\
      mem s q = None /\ mem s' q = Some (OBytes b') /\ sampled m w h b ow oh b' /\
      read_vec v s' = Ok (l, s') /\ lists l b' /\
      (forall i, i <> q -> i <> pm -> mem s' i = mem s i) /\
      (mem s' pm = mem s pm \/ like_identity m)).
