(** * C103, C104: the table of operations and its memory *)
From Coq Require Import String.
From Verif Require Import Base F Heap M_Color M_Parse M_Table Spec_Parse Spec_Table P_Table.
Local Open Scope string_scope.
Local Open Scope list_scope.
Local Open Scope Z_scope.

(** C103: The operations that reach the pipeline are those of the arguments (as
    M_Parse reads them as plain values), all of them, in their order, however
    often the table has to grow; and afterwards every block is released, also if
    the arguments are rejected. *)
Theorem C103_arguments : forall atof atoi show2 args s,
  args_size args <= 2 ^ 30 -> plenty s ->
  exists r s', table_of atof atoi show2 args s = Ok (r, s') /\ same_blocks s s' /\
    parse_pipeline atof atoi show2 true args = Ok r.
Proof. intros atof atoi show2 args s H (Ho & Hf). exact (table_of_ok atof atoi show2 args s H Ho Hf). Qed.
Print Assumptions C103_arguments.

(** The table by itself: adding operations one after the other *)
Theorem C103_table : forall l s,
  Z.of_nat (length l) <= 2 ^ 30 -> plenty s ->
  exists p s1 s2 s3, create_pipeline s = Ok (p, s1) /\ add_all p l s1 = Ok (tt, s2) /\
    read_table p s2 = Ok (l, s2) /\ free_pipeline p s2 = Ok (tt, s3) /\ same_blocks s s3.
Proof. intros l s H (Ho & Hf). exact (add_all_read l s Ho Hf H). Qed.
Print Assumptions C103_table.

Definition t_state : tst := mktst (fun x => if x =? 4 then Some (TStr [65]) else None) 7 (fun _ => true) 12.
Example C103_ex : plenty t_state.
Proof. split; [reflexivity|]. intros x Hx. cbn in *. destruct (Z.eqb_spec x 4); [lia|reflexivity]. Qed.
Definition t_args : list cstr :=
  [txt "a,b,c,d,e,(f),g,h,i"; txt ", circle #ff0000 3 4x5,"; txt "extract_document_to 80x60,j,k,l,m,n,o,p"].
Definition names (r : option (list pipeline_op)) : option (list cstr) := match r with Some l => Some (map op_name l) | None => None end.
(** 18 operations: the table grows twice. *)
Example C103_ex18 :
  match table_of (fun _ => d0) (fun _ => 5) (fun _ _ => []) t_args t_state with
  | Ok (r, s') => names r = Some (map txt ["a"; "b"; "c"; "d"; "e"; "f"; "g"; "h"; "i"; "circle"; "extract_document_to"; "j"; "k"; "l"; "m"; "n"; "o"; "p"])
                  /\ ttick s' = 19%nat
  | _ => False
  end.
Proof. vm_compute. split; reflexivity. Qed.
(** Rejected arguments *)
Example C103_ex_rejected :
  match table_of (fun _ => d0) (fun _ => 0) (fun _ _ => []) t_args t_state with
  | Ok (r, s') => r = None /\ map (tmem s') [4; 7; 8; 9; 10; 11; 12] = Some (TStr [65]) :: repeat None 6
  | _ => False
  end.
Proof. vm_compute. split; reflexivity. Qed.

(** C104: "If memory for the operations runs out, the program stops with an error
    message."  False: four of the five kinds of allocation are not checked. *)
Theorem C104_memory_refuted :
  (* the Pipeline itself, whatever the arguments *)
  (forall atof atoi show2 args s, torc s (ttick s) = false -> table_of atof atoi show2 args s = UB NullDeref) /\
  (* the table; the table when it grows for the ninth operation; the copy of a circle's position *)
  (forall atof atoi show2, table_of atof atoi show2 [txt "sobel"] (st_fail 1) = UB NullDeref) /\
  (forall atof atoi show2, table_of atof atoi show2 [txt "sobel,sobel,sobel,sobel,sobel,sobel,sobel,sobel,sobel"] (st_fail 3) = UB NullDeref) /\
  (forall atof atoi show2, table_of atof atoi show2 [txt "circle #ff0000 3 4x5"] (st_fail 3) = UB NullDeref).
Proof. exact (conj oom_first (conj oom_table (conj oom_ninth oom_strdup))). Qed.
Print Assumptions C104_memory_refuted.

(** What holds: if the memory for the joined arguments is what is missing, the
    arguments are rejected and everything is released. *)
Theorem C104_joined_partial : forall atof atoi show2 args s,
  (forall n, torc s n = true <-> n <> (2 + ttick s)%nat) -> (forall x, tnxt s <= x -> tmem s x = None) ->
  exists s', table_of atof atoi show2 args s = Ok (None, s') /\ same_blocks s s'.
Proof. exact oom_joined. Qed.
Print Assumptions C104_joined_partial.
Example C104_ex : (forall n, torc (st_fail 2) n = true <-> n <> (2 + ttick (st_fail 2))%nat) /\
  (forall x, tnxt (st_fail 2) <= x -> tmem (st_fail 2) x = None).
Proof.
  split; [|reflexivity]. intros n. cbn [torc ttick st_fail]. rewrite negb_true_iff.
  split; intros H; [apply PeanoNat.Nat.eqb_neq in H; exact H|apply PeanoNat.Nat.eqb_neq; exact H].
Qed.
