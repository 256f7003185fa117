(** * Model of the command-line parser of src/cli.c

    Strings are the lists of their bytes (1..255) up to the terminating NUL.
    The C code edits the joined string in place; the pieces it edits never
    overlap with what is read later, so the model passes values instead.
    [atof], [atoi] and the "%.2f %.2f" rendering of two numbers are library
    calls and stay abstract.  Failure of strdup, malloc(Pipeline) and realloc
    (none of them checked by the code) is not modelled. *)
From Verif Require Import Base F M_Color.

(** C library: isspace in the C locale *)
Definition isspace (c : Z) : bool := (c =? 32) || ((9 <=? c) && (c <=? 13)).
Definition isdigit (c : Z) : bool := (48 <=? c) && (c <=? 57).

(** C library: strchr, giving the text before and after the first [c] *)
Fixpoint strchr (c : Z) (s : cstr) : option (cstr * cstr) :=
  match s with
  | [] => None
  | d :: t => if d =? c then Some ([], t)
              else match strchr c t with Some (a, b) => Some (d :: a, b) | None => None end
  end.
Definition has_chr (c : Z) (s : cstr) : bool := match strchr c s with Some _ => true | None => false end.

(** C library: strcmp(a, b) == 0 *)
Fixpoint streq (a b : cstr) : bool :=
  match a, b with
  | [], [] => true
  | x :: a, y :: b => (x =? y) && streq a b
  | _, _ => false
  end.

(** cli.c:227-230, left-trim *)
Fixpoint ltrim (s : cstr) : cstr :=
  match s with [] => [] | c :: t => if isspace c then ltrim t else s end.
(** cli.c:227-242 [trim_whitespace] *)
Definition trim_whitespace (s : cstr) : cstr := rev (ltrim (rev (ltrim s))).

(** ** parse_geometry *)
(** C library: digits read by strtol/strtoul: value and rest; [None] if there
    are no digits *)
Fixpoint read_digits (acc : Z) (s : cstr) : Z * cstr :=
  match s with
  | c :: t => if isdigit c then read_digits (10 * acc + (c - 48)) t else (acc, s)
  | [] => (acc, s)
  end.
(** Sign (true: minus), value, rest; [None]: no conversion *)
Definition read_number (s : cstr) : option (bool * Z * cstr) :=
  let t := ltrim s in
  let '(neg, t) := match t with
                   | c :: t' => if c =? 45 then (true, t') else if c =? 43 then (false, t') else (false, t)
                   | [] => (false, t)
                   end in
  match t with
  | c :: _ => if isdigit c then let '(v, r) := read_digits 0 t in Some (neg, v, r) else None
  | [] => None
  end.
Definition ULONG_MAX : Z := 18446744073709551615.
Definition LONG_MAX : Z := 9223372036854775807.
Definition LONG_MIN : Z := -9223372036854775808.
(** C library: strtoul(s, &end, 10) *)
Definition strtoul (s : cstr) : Z * cstr :=
  match read_number s with
  | None => (0, s)
  | Some (neg, v, r) => (if ULONG_MAX <? v then ULONG_MAX else if neg then u64 (- v) else v, r)
  end.
(** C library: strtol(s, &end, 10) *)
Definition strtol (s : cstr) : Z * cstr :=
  match read_number s with
  | None => (0, s)
  | Some (neg, v, r) =>
      let v := if neg then - v else v in
      (if LONG_MAX <? v then LONG_MAX else if v <? LONG_MIN then LONG_MIN else v, r)
  end.

(** cli.c:253-309 [parse_geometry]: width, height, x_offset, y_offset *)
Definition parse_geometry (geometry : cstr) : option (Z * Z * Z * Z) :=
  let '(w, end_ptr) := strtoul geometry in
  match end_ptr with
  | c :: height_start =>
      if negb (c =? 120) || (w =? 0) || (4294967295 <? w) then None else
      let '(h, end_ptr) := strtoul height_start in
      if (h =? 0) || (4294967295 <? h) then None else
      match end_ptr with
      | [] => Some (w, h, 0, 0)
      | _ =>
          let '(x, end_ptr) := strtol end_ptr in
          if (x <? INT_MIN) || (INT_MAX <? x) then None else
          match end_ptr with
          | [] => Some (w, h, x, 0)
          | _ =>
              let '(y, end_ptr) := strtol end_ptr in
              if (y <? INT_MIN) || (INT_MAX <? y) then None else
              match end_ptr with [] => Some (w, h, x, y) | _ => None end
          end
      end
  | [] => None
  end.

(** ** Pipelines *)
(** cli.c:20-33 [PipelineOp] *)
Record pipeline_op := mkop {
  op_name : cstr;
  op_p1 : option f64; op_p2 : option f64; op_p3 : option f64; op_p4 : option f64;
  op_str : option cstr }.

(** cli.c:175-223 [add_operation]: the appended entry; operation is a char[32],
    param_str a char[64] *)
Definition new_op (op : cstr) (p1 p2 p3 p4 : option f64) (param_str : option cstr) : pipeline_op :=
  mkop (firstn 31 op) p1 p2 p3 p4 (match param_str with Some t => Some (firstn 63 t) | None => None end).

(** "resize", "circle", ... *)
Definition s_resize : cstr := [114;101;115;105;122;101].
Definition s_circle : cstr := [99;105;114;99;108;101].
Definition s_disk : cstr := [100;105;115;107].
Definition s_watershed : cstr := [119;97;116;101;114;115;104;101;100].
Definition s_crop : cstr := [99;114;111;112].
Definition s_extract_document : cstr := [101;120;116;114;97;99;116;95;100;111;99;117;109;101;110;116].
Definition s_extract_document_to : cstr := s_extract_document ++ [95;116;111].
Definition s_border : cstr := [98;111;114;100;101;114].
Definition s_trim : cstr := [116;114;105;109].

Section parser.
Variable atof : cstr -> f64.
Variable atoi : cstr -> Z.
Variable show2 : f64 -> f64 -> cstr.

(** cli.c:389-415 and 757-796: one or two numeric parameters *)
Definition numeric_op (piece params_str : cstr) : pipeline_op :=
  match strchr 32 params_str with
  | Some (a, b) => new_op piece (Some (atof (trim_whitespace a))) (Some (atof (trim_whitespace b))) None None None
  | None => new_op piece (Some (atof params_str)) None None None None
  end.

(** cli.c:430-499, 500-570: "circle" and "disk" *)
Definition shape_op (piece params_str : cstr) : option pipeline_op :=
  match strchr 32 params_str with
  | None => None
  | Some (a, b) =>
      let color := trim_whitespace a in
      let remaining := trim_whitespace b in
      match strchr 32 remaining with
      | None => None
      | Some (a, b) =>
          let radius := atof (trim_whitespace a) in
          let position_str := trim_whitespace b in
          match strchr 120 position_str with
          | None => None
          | Some (a, b) =>
              let center_x := atof (trim_whitespace a) in
              let center_y := atof (trim_whitespace b) in
              let combined_params := firstn 127 (color ++ 32 :: show2 center_x center_y) in
              Some (new_op piece (Some radius) (Some center_x) (Some center_y) None (Some combined_params))
          end
      end
  end.

(** cli.c:366-805: an operation with parameters; [None]: error *)
Definition parse_with_params (piece params_str : cstr) : option pipeline_op :=
  if streq piece s_resize then
    if has_chr 37 params_str || has_chr 120 params_str
    then Some (new_op piece None None None None (Some params_str))
    else Some (numeric_op piece params_str)
  else if streq piece s_circle then shape_op piece params_str
  else if streq piece s_disk then shape_op piece params_str
  else if streq piece s_watershed then Some (new_op piece None None None None (Some params_str))
  else if streq piece s_crop then
    match parse_geometry params_str with
    | Some (w, h, x, y) => Some (new_op piece (Some (d_of_Z x)) (Some (d_of_Z y)) (Some (d_of_Z w)) (Some (d_of_Z h)) None)
    | None => None
    end
  else if streq piece s_extract_document_to then
    match strchr 120 params_str with
    | Some (a, b) =>
        let out_width := u32 (atoi (trim_whitespace a)) in
        let out_height := u32 (atoi (trim_whitespace b)) in
        if (0 <? out_width) && (0 <? out_height)
        then Some (new_op piece (Some (d_of_Z out_width)) (Some (d_of_Z out_height)) None None None)
        else None
    | None => None
    end
  else if streq piece s_extract_document then Some (new_op piece None None None None None)
  else if streq piece s_border then
    match strchr 32 params_str with
    | Some (a, b) =>
        let color := trim_whitespace a in
        let border_width := atof (trim_whitespace b) in
        if dlt d0 border_width then Some (new_op piece (Some border_width) None None None (Some color)) else None
    | None => None
    end
  else if streq piece s_trim then
    if has_chr 37 params_str then Some (new_op piece None None None None (Some params_str))
    else Some (new_op piece (Some (atof params_str)) None None None None)
  else Some (numeric_op piece params_str).

(** Last byte of a non-empty string *)
Definition last_chr (s : cstr) : Z := last s 0.

(** cli.c:349-354: drop surrounding parentheses *)
Definition strip_parens (piece : cstr) : cstr :=
  if (hd 0 piece =? 40) && (last_chr piece =? 41)
  then trim_whitespace (tl (removelast piece)) else piece.

(** cli.c:341-806: one chunk between commas: [None]: error; [Some []]: skipped *)
Definition parse_piece (tok : cstr) : option (list pipeline_op) :=
  let piece := trim_whitespace tok in
  match piece with
  | [] => Some []
  | _ =>
      let piece := strip_parens piece in
      match piece with
      | [] => Some []
      | _ =>
          match strchr 32 piece with
          | Some (name, rest) =>
              match parse_with_params name (trim_whitespace rest) with
              | Some op => Some [op]
              | None => None
              end
          | None => Some [new_op piece None None None None None]
          end
      end
  end.

(** C library: the successive results of strtok_r(_, ",", _): the maximal
    non-empty pieces without comma; [cur] is the current piece, reversed *)
Fixpoint tokens (cur : cstr) (s : cstr) : list cstr :=
  match s with
  | [] => match cur with [] => [] | _ => [rev cur] end
  | c :: t => if c =? 44 then match cur with [] => tokens [] t | _ => rev cur :: tokens [] t end
              else tokens (c :: cur) t
  end.

(** cli.c:340-806: the loop over the chunks *)
Fixpoint parse_tokens (ts : list cstr) (ops : list pipeline_op) : option (list pipeline_op) :=
  match ts with
  | [] => Some ops
  | t :: ts => match parse_piece t with
               | Some l => parse_tokens ts (ops ++ l)
               | None => None
               end
  end.
Definition parse_string (s : cstr) : option (list pipeline_op) := parse_tokens (tokens [] s) [].

(** C library: strcat into a buffer of [cap] bytes *)
Definition strcat (cap : Z) (dst src : cstr) : res cstr :=
  if Z.of_nat (length dst) + Z.of_nat (length src) + 1 <=? cap then Ok (dst ++ src) else UB OutOfBounds.

(** cli.c:321-325 *)
Fixpoint total_len (args : list cstr) (acc : Z) : Z :=
  match args with [] => acc | a :: rest => total_len rest (u64 (acc + u64 (Z.of_nat (length a) + 2))) end.
(** cli.c:333-341 *)
Fixpoint join_args (cap : Z) (first : bool) (args : list cstr) (combined : cstr) : res cstr :=
  match args with
  | [] => Ok combined
  | tok :: rest =>
      combined <- (if first then Ok combined else strcat cap combined [32]) ;;
      combined <- strcat cap combined tok ;;
      join_args cap false rest combined
  end.

(** cli.c:311-810 [parse_pipeline]; [args]: the arguments start_idx..end_idx-1;
    [mem]: whether malloc succeeds; result [None]: return 0 *)
Definition parse_pipeline (mem : bool) (args : list cstr) : res (option (list pipeline_op)) :=
  if negb mem then Ok None else
  let cap := u64 (total_len args 0 + 1) in
  if cap =? 0 then UB OutOfBounds else
  combined <- join_args cap true args [] ;;
  Ok (parse_string combined).
End parser.
