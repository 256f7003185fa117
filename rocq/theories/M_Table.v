(** * Model of the table of operations of src/cli.c, with its memory

    [create_pipeline], [add_operation], [free_pipeline], and the blocks that
    [parse_pipeline] and [main] allocate around them.  M_Parse and M_Main use the
    operations as plain values; here they live in a growing heap block.  The heap
    is the one of Heap.v with other kinds of blocks.  Strings are values: the
    in-place edits of [combined] by strtok_r and trim_whitespace are those of
    M_Parse. *)
From Verif Require Import Base F Heap M_Color M_Parse.

(** Heap blocks: an array of PipelineOp, a Pipeline (cli.c:35-39), a string *)
Inductive tobj :=
| TOps (b : buf pipeline_op)
| TPipe (ops : ptr) (count capacity : Z)
| TStr (s : cstr).

Record tst := mktst {
  tmem : Z -> option tobj;  (* live blocks *)
  tnxt : Z;                 (* next fresh block id *)
  torc : nat -> bool;       (* does the n-th allocation succeed? *)
  ttick : nat               (* number of allocations attempted so far *)
}.

Definition T (A : Type) := tst -> res (A * tst).
Definition tret {A} (a : A) : T A := fun s => Ok (a, s).
Definition bindT {A B} (m : T A) (k : A -> T B) : T B :=
  fun s => match m s with Ok (a, s') => k a s' | UB u => UB u | Hang => Hang | Abort => Abort end.
Definition tlift {A} (r : res A) : T A :=
  fun s => match r with Ok a => Ok (a, s) | UB u => UB u | Hang => Hang | Abort => Abort end.
Notation "x <~ m ;; k" := (bindT m (fun x => k)) (at level 61, m at next level, right associativity).

(** C library: malloc (as Heap.alloc), free, and accesses *)
Definition talloc (o : tobj) : T ptr :=
  fun s =>
    if torc s (ttick s)
    then Ok (Ptr (tnxt s), mktst (upd (tmem s) (tnxt s) (Some o)) (tnxt s + 1) (torc s) (S (ttick s)))
    else Ok (Null, mktst (tmem s) (tnxt s) (torc s) (S (ttick s))).
Definition tfree (p : ptr) : T unit :=
  match p with
  | Null => tret tt
  | Ptr i => fun s =>
      match tmem s i with
      | Some _ => Ok (tt, mktst (upd (tmem s) i None) (tnxt s) (torc s) (ttick s))
      | None => UB BadFree
      end
  end.
Definition tget (p : ptr) : T tobj :=
  match p with
  | Null => fun _ => UB NullDeref
  | Ptr i => fun s => match tmem s i with Some o => Ok (o, s) | None => UB UseAfterFree end
  end.
Definition tput (p : ptr) (o : tobj) : T unit :=
  match p with
  | Null => fun _ => UB NullDeref
  | Ptr i => fun s =>
      match tmem s i with
      | Some _ => Ok (tt, mktst (upd (tmem s) i (Some o)) (tnxt s) (torc s) (ttick s))
      | None => UB UseAfterFree
      end
  end.
Definition get_ops (p : ptr) : T (buf pipeline_op) :=
  o <~ tget p ;; match o with TOps b => tret b | _ => fun _ => UB BadType end.
Definition get_pipe (p : ptr) : T (ptr * Z * Z) :=
  o <~ tget p ;; match o with TPipe q c k => tret (q, c, k) | _ => fun _ => UB BadType end.
Definition get_str (p : ptr) : T cstr :=
  o <~ tget p ;; match o with TStr t => tret t | _ => fun _ => UB BadType end.

(** C library: realloc of an array to [n] elements: a fresh block with the
    leading elements of the old one, which is freed; if it fails, the old block
    stays and the result is NULL *)
Definition realloc_ops (p : ptr) (n : Z) : T ptr :=
  match p with
  | Null => talloc (TOps (bnew n))
  | Ptr _ =>
      b <~ get_ops p ;;
      q <~ talloc (TOps (mkbuf n (fun i => if i <? Z.min n (blen b) then bget b i else None))) ;;
      if is_null q then tret Null else (_ <~ tfree p ;; tret q)
  end.

(** cli.c:149-155 [create_pipeline]: neither malloc is checked *)
Definition create_pipeline : T ptr :=
  p <~ talloc (TPipe Null 0 0) ;;
  _ <~ tput p (TPipe Null 0 8) ;;
  ops <~ talloc (TOps (bnew 8)) ;;
  _ <~ tput p (TPipe ops 0 8) ;;
  tret p.

(** cli.c:157-162 [free_pipeline] *)
Definition free_pipeline (p : ptr) : T unit :=
  if is_null p then tret tt else
  v <~ get_pipe p ;;
  let '(ops, _, _) := v in
  _ <~ tfree ops ;;
  tfree p.

(** cli.c:175-223 [add_operation]; [o]: the entry, see M_Parse.new_op.  The
    capacity is an int; the result of realloc is not checked. *)
Definition add_operation (p : ptr) (o : pipeline_op) : T unit :=
  v <~ get_pipe p ;;
  let '(ops, count, capacity) := v in
  v <~ (if capacity <=? count then
          capacity <~ tlift (ck32 (capacity * 2)) ;;
          ops <~ realloc_ops ops capacity ;;
          tret (ops, capacity)
        else tret (ops, capacity)) ;;
  let '(ops, capacity) := v in
  b <~ get_ops ops ;;
  b <~ tlift (store b count o) ;;
  _ <~ tput ops (TOps b) ;;
  count <~ tlift (ck32 (count + 1)) ;;
  tput p (TPipe ops count capacity).

(** C library: strdup *)
Definition strdup (t : cstr) : T ptr := talloc (TStr t).

Section parser.
Variable atof : cstr -> f64.
Variable atoi : cstr -> Z.
Variable show2 : f64 -> f64 -> cstr.

(** cli.c:430-499, 500-570: "circle" and "disk"; the result of strdup (line 444,
    line 520) is not checked; [false]: error *)
Definition add_shape (p : ptr) (piece params_str : cstr) : T bool :=
  match strchr 32 params_str with
  | None => tret false
  | Some (a, b) =>
      let color := trim_whitespace a in
      let remaining := trim_whitespace b in
      match strchr 32 remaining with
      | None => tret false
      | Some (a, b) =>
          let radius := atof (trim_whitespace a) in
          let position_str := trim_whitespace b in
          pos_copy <~ strdup position_str ;;
          t <~ get_str pos_copy ;;
          match strchr 120 t with
          | None => _ <~ tfree pos_copy ;; tret false
          | Some (a, b) =>
              let center_x := atof (trim_whitespace a) in
              let center_y := atof (trim_whitespace b) in
              let combined_params := firstn 127 (color ++ 32 :: show2 center_x center_y) in
              _ <~ add_operation p (new_op piece (Some radius) (Some center_x) (Some center_y) None (Some combined_params)) ;;
              _ <~ tfree pos_copy ;;
              tret true
          end
      end
  end.

(** cli.c:634-681: "extract_document_to"; the result of strdup is not checked *)
Definition add_extract_to (p : ptr) (piece params_str : cstr) : T bool :=
  params_copy <~ strdup params_str ;;
  t <~ get_str params_copy ;;
  match strchr 120 t with
  | Some (a, b) =>
      let out_width := u32 (atoi (trim_whitespace a)) in
      let out_height := u32 (atoi (trim_whitespace b)) in
      if (0 <? out_width) && (0 <? out_height) then
        _ <~ add_operation p (new_op piece (Some (d_of_Z out_width)) (Some (d_of_Z out_height)) None None None) ;;
        _ <~ tfree params_copy ;;
        tret true
      else (_ <~ tfree params_copy ;; tret false)
  | None => _ <~ tfree params_copy ;; tret false
  end.

(** cli.c:366-805: an operation with parameters.  The branches that allocate
    nothing are those of M_Parse.parse_with_params. *)
Definition add_with_params (p : ptr) (piece params_str : cstr) : T bool :=
  if streq piece s_circle then add_shape p piece params_str
  else if streq piece s_disk then add_shape p piece params_str
  else if streq piece s_extract_document_to then add_extract_to p piece params_str
  else match parse_with_params atof atoi show2 piece params_str with
       | Some o => _ <~ add_operation p o ;; tret true
       | None => tret false
       end.

(** cli.c:341-806: one chunk between commas; [false]: error *)
Definition add_piece (p : ptr) (tok : cstr) : T bool :=
  let piece := trim_whitespace tok in
  match piece with
  | [] => tret true
  | _ =>
      let piece := strip_parens piece in
      match piece with
      | [] => tret true
      | _ =>
          match strchr 32 piece with
          | Some (name, rest) => add_with_params p name (trim_whitespace rest)
          | None => _ <~ add_operation p (new_op piece None None None None None) ;; tret true
          end
      end
  end.

(** cli.c:340-807: the loop over the chunks *)
Fixpoint add_pieces (p : ptr) (ts : list cstr) : T bool :=
  match ts with
  | [] => tret true
  | t :: ts => ok <~ add_piece p t ;; if ok then add_pieces p ts else tret false
  end.

(** cli.c:311-810 [parse_pipeline]: [combined] is freed on every path *)
Definition parse_into (p : ptr) (args : list cstr) : T bool :=
  let cap := u64 (total_len args 0 + 1) in
  combined <~ talloc (TStr []) ;;
  if is_null combined then tret false else
  if cap =? 0 then tlift (UB OutOfBounds) else
  t <~ tlift (join_args cap true args []) ;;
  _ <~ tput combined (TStr t) ;;
  ok <~ add_pieces p (tokens [] t) ;;
  _ <~ tfree combined ;;
  tret ok.

(** cli.c:1443, 166: reading the entries of the table, as
    execute_pipeline and pipeline_has_binarization do *)
Fixpoint read_ops (b : buf pipeline_op) (i : Z) (n : nat) : res (list pipeline_op) :=
  match n with
  | O => Ok []
  | S n => o <- load b i ;; r <- read_ops b (i + 1) n ;; Ok (o :: r)
  end.
Definition read_table (p : ptr) : T (list pipeline_op) :=
  v <~ get_pipe p ;;
  let '(ops, count, _) := v in
  if count =? 0 then tret [] else
  b <~ get_ops ops ;;
  tlift (read_ops b 0 (Z.to_nat count)).

(** cli.c:1531-1547 and 1657-1671, the memory of [main] apart from the pictures:
    make the table, fill it from the arguments, use it, release it; [None]: the
    arguments were rejected *)
Definition table_of (args : list cstr) : T (option (list pipeline_op)) :=
  p <~ create_pipeline ;;
  ok <~ parse_into p args ;;
  if ok then
    ops <~ read_table p ;;
    _ <~ free_pipeline p ;;
    tret (Some ops)
  else (_ <~ free_pipeline p ;; tret None).
End parser.
