(** * Model of [apply_operation] of src/cli.c *)
From Coq Require Import String Ascii.
From Verif Require Import Base F Heap M_Color M_Geom M_Blur M_Resize M_Otsu M_Smart M_Draw M_Sobel M_Watershed
  M_Trim M_Hist M_Morph Spec_Corners M_Detect M_Parse M_Exif M_Cli.
Local Open Scope string_scope.
Local Open Scope list_scope.
Local Open Scope Z_scope.

(** The bytes of a string literal *)
Definition str (s : string) : cstr := List.map (fun a => Z.of_N (N_of_ascii a)) (list_ascii_of_string s).

(** C library: strdup.  The copy exists as a block, so that failure and leaks
    show; its text is passed by value, since the code edits it only where it
    does not read again. *)
Definition strdup (t : cstr) : M ptr := alloc (OBytes (of_list (t ++ [0]))).
(** Using the copy as a string: strchr, strtok or a dereference of NULL is
    undefined. *)
Definition text_of (p : ptr) : M unit := match p with Null => fun _ => UB NullDeref | Ptr _ => ret tt end.

(** C library: the successive results of strtok(_, " "): the maximal non-empty
    pieces without space; [cur] is the current piece, reversed *)
Fixpoint words (cur : cstr) (s : cstr) : list cstr :=
  match s with
  | [] => match cur with [] => [] | _ => [rev cur] end
  | c :: t => if c =? 32 then match cur with [] => words [] t | _ => rev cur :: words [] t end
              else words (c :: cur) t
  end.

(** A parameter that was not given is 0.0 (cli.c:175-223, callers) *)
Definition num (p : option f64) : f64 := match p with Some x => x | None => d0 end.
Definition given {A} (p : option A) : bool := match p with Some _ => true | None => false end.

(** The result of a library call, with the sizes it stored, as the result of the
    operation: [if (result) { *width = w; *height = h; }] *)
Definition sized (width height : Z) (r : ptr * Z * Z) : ptr * Z * Z :=
  let '(p, w, h) := r in if is_null p then (p, width, height) else (p, s32 w, s32 h).
Definition unsized (width height : Z) (m : M ptr) : M (ptr * Z * Z) := p <-- m ;; ret (p, width, height).

Section Apply.
(** C library functions, see M_Parse, M_Detect; [pow2]: pow(x, 2); [fuel] bounds
    the loops of the flooding; [identity]: see M_Detect *)
Variables (atof : cstr -> f64) (atoi : cstr -> Z) (show2 : f64 -> f64 -> cstr).
Variables (exp : f64 -> f64) (atan2 : f64 -> f64 -> f64) (asin pow2 : f64 -> f64).
Variables (fuel : nat) (identity : ptr).

(** cli.c:846-885: the factors of "resize"; [None]: error *)
Definition resize_factors (param_str : cstr) (width height : Z) : option (f64 * f64) :=
  match strchr 120 param_str with
  | Some (a, b) =>
      let first_part := trim_whitespace a in
      let second_part := trim_whitespace b in
      if has_chr 37 first_part
      then Some (ddiv (atof first_part) (d_of_Z 100), ddiv (atof second_part) (d_of_Z 100))
      else Some (ddiv (atof first_part) (d_of_Z width), ddiv (atof second_part) (d_of_Z height))
  | None =>
      if has_chr 37 param_str
      then Some (ddiv (atof param_str) (d_of_Z 100), ddiv (atof param_str) (d_of_Z 100))
      else None
  end.

(** cli.c:839-904: "resize" *)
Definition resize_op (o : pipeline_op) (width height : Z) (input_data : ptr) : M (ptr * Z * Z) :=
  f <-- match op_str o with
        | Some param_str =>
            param_copy <-- strdup param_str ;;
            _ <-- text_of param_copy ;;
            _ <-- free param_copy ;;
            ret (resize_factors param_str width height)
        | None =>
            ret match op_p1 o with
                | Some x => Some (x, match op_p2 o with Some y => y | None => x end)
                | None => None
                end
        end ;;
  match f with
  | None => ret (Null, width, height)
  | Some (resize_x, resize_y) =>
      r <-- resize (u32 width) (u32 height) resize_x resize_y 0 0 input_data ;;
      ret (sized width height r)
  end.

(** cli.c:929-933, 943-948, 992-999, 1026-1033: a copy whose size is computed in
    int; [None]: malloc failed *)
Definition copy_int (width height : Z) (input_data : ptr) : M ptr :=
  n <-- lift (ck32 (width * height)) ;;
  n <-- lift (ck32 (n * 4)) ;;
  result <-- malloc_bytes n ;;
  if is_null result then ret Null else
  src <-- get_bytes input_data ;;
  dst <-- get_bytes result ;;
  dst' <-- lift (bcopy dst 0 src 0 n) ;;
  _ <-- put_bytes result dst' ;;
  ret result.

(** cli.c:914-934: "detect_corners"; the printed corners are not modelled *)
Definition detect_op (width height : Z) (input_data : ptr) : M (ptr * Z * Z) :=
  _ <-- detect_corners exp atan2 asin fuel input_data width height ;;
  unsized width height (copy_int width height input_data).

(** cli.c:935-959: "draw_corners" *)
Definition draw_corners_op (width height : Z) (input_data : ptr) : M (ptr * Z * Z) :=
  cs <-- detect_corners exp atan2 asin fuel input_data width height ;;
  result <-- copy_int width height input_data ;;
  if is_null result then ret (Null, width, height) else
  let radius := dmul (d_of_Z (Z.min width height)) (lit 2 100) in
  let disk c := draw_disk (u32 width) (u32 height) 4 (Some (str "FF0000")) radius (fst c) (snd c) result in
  _ <-- disk (tl cs) ;;
  _ <-- disk (tr cs) ;;
  _ <-- disk (br cs) ;;
  _ <-- disk (bl cs) ;;
  ret (result, width, height).

(** cli.c:960-973: "sobel" *)
Definition sobel_op (width height : Z) (input_data : ptr) : M (ptr * Z * Z) :=
  grayscale_sobel <-- sobel_edge_detection (u32 width) (u32 height) 4 input_data ;;
  if is_null grayscale_sobel then ret (Null, width, height) else
  rgba_result <-- single_to_multichannel (u32 width) (u32 height) grayscale_sobel ;;
  _ <-- free grayscale_sobel ;;
  ret (rgba_result, width, height).

(** cli.c:974-1014 "circle", 1015-1049 "disk" *)
Definition draw_op (draw : Z -> Z -> Z -> option cstr -> f64 -> f64 -> f64 -> ptr -> M unit)
    (o : pipeline_op) (width height : Z) (input_data : ptr) : M (ptr * Z * Z) :=
  match op_str o with
  | None => ret (Null, width, height)
  | Some param_str =>
      if negb (given (op_p1 o)) || negb (given (op_p2 o)) || negb (given (op_p3 o)) then ret (Null, width, height) else
      param_copy <-- strdup param_str ;;
      _ <-- text_of param_copy ;;
      let color := hd_error (words [] param_str) in
      result <-- copy_int width height input_data ;;
      if is_null result then (_ <-- free param_copy ;; ret (Null, width, height)) else
      _ <-- draw (u32 width) (u32 height) 4 color (num (op_p1 o)) (num (op_p2 o)) (num (op_p3 o)) result ;;
      _ <-- free param_copy ;;
      ret (result, width, height)
  end.

(** cli.c:1063-1067 *)
Fixpoint count_spaces (s : cstr) : Z :=
  match s with [] => 0 | c :: t => (if c =? 32 then 1 else 0) + count_spaces t end.

(** cli.c:1076-1089: the loop over the markers *)
Fixpoint parse_markers (num_markers : Z) (toks : list cstr) (marker_idx : Z) (markers : buf (f64 * f64))
  : res (Z * buf (f64 * f64)) :=
  match toks with
  | [] => Ok (marker_idx, markers)
  | token :: toks =>
      if marker_idx <? num_markers then
        match strchr 120 token with
        | Some (a, b) =>
            markers <- store markers marker_idx (atof (trim_whitespace a), atof (trim_whitespace b)) ;;
            parse_markers num_markers toks (marker_idx + 1) markers
        | None => parse_markers num_markers toks marker_idx markers
        end
      else Ok (marker_idx, markers)
  end.

(** cli.c:1050-1122: "watershed" *)
Definition watershed_op (o : pipeline_op) (width height : Z) (input_data : ptr) : M (ptr * Z * Z) :=
  match op_str o with
  | None => ret (Null, width, height)
  | Some param_str =>
      param_copy <-- strdup param_str ;;
      _ <-- text_of param_copy ;;
      let num_markers := 1 + count_spaces param_str in
      markers <-- alloc (OPts (bnew num_markers)) ;;
      if is_null markers then (_ <-- free param_copy ;; ret (Null, width, height)) else
      m <-- get_pts markers ;;
      r <-- lift (parse_markers num_markers (words [] param_str) 0 m) ;;
      let '(marker_idx, m) := r in
      _ <-- put_obj markers (OPts m) ;;
      if marker_idx =? 0 then (_ <-- free markers ;; _ <-- free param_copy ;; ret (Null, width, height)) else
      grayscale_data <-- rgba_to_grayscale (u32 width) (u32 height) input_data ;;
      if is_null grayscale_data then (_ <-- free markers ;; _ <-- free param_copy ;; ret (Null, width, height)) else
      result <-- watershed fuel (u32 width) (u32 height) grayscale_data markers marker_idx false ;;
      _ <-- free grayscale_data ;;
      _ <-- free markers ;;
      _ <-- free param_copy ;;
      ret (result, width, height)
  end.

(** cli.c:1166-1183: "extract_document" *)
Definition extract_auto_op (width height : Z) (input_data : ptr) : M (ptr * Z * Z) :=
  r <-- extract_document_auto exp atan2 asin pow2 fuel identity (u32 width) (u32 height) input_data 0 0 ;;
  ret (sized width height r).

(** cli.c:1184-1210: "extract_document_to" *)
Definition extract_to_op (o : pipeline_op) (width height : Z) (input_data : ptr) : M (ptr * Z * Z) :=
  if negb (given (op_p1 o)) || negb (given (op_p2 o)) then ret (Null, width, height) else
  output_width <-- lift (to_u32 (num (op_p1 o))) ;;
  output_height <-- lift (to_u32 (num (op_p2 o))) ;;
  p <-- extract_document exp atan2 asin fuel identity (u32 width) (u32 height) input_data output_width output_height ;;
  ret (sized width height (p, output_width, output_height)).

(** cli.c:1260-1276: "trim" *)
Definition trim_op (o : pipeline_op) (width height : Z) (input_data : ptr) : M (ptr * Z * Z) :=
  match op_str o with
  | Some t => if has_chr 37 t then trim_threshold width height 4 input_data (atof t)
              else match op_p1 o with
                   | Some x => trim_threshold width height 4 input_data x
                   | None => trim width height 4 input_data
                   end
  | None => match op_p1 o with
            | Some x => trim_threshold width height 4 input_data x
            | None => trim width height 4 input_data
            end
  end.

(** cli.c:1277-1293: "histogram" *)
Definition histogram_op (width height : Z) (input_data : ptr) : M (ptr * Z * Z) :=
  r <-- generate_histogram (u32 width) (u32 height) 4 input_data 0 0 ;;
  ret (sized width height r).

(** cli.c:1294-1321: "border" *)
Definition border_op (o : pipeline_op) (width height : Z) (input_data : ptr) : M (ptr * Z * Z) :=
  match op_str o, op_p1 o with
  | Some param_str, Some param =>
      border_width <-- lift (to_u32 param) ;;
      r <-- add_border (u32 width) (u32 height) 4 (Some param_str) border_width input_data 0 0 ;;
      ret (sized width height r)
  | _, _ => ret (Null, width, height)
  end.

(** cli.c:1322-1346 "erode", 1347-1371 "dilate", 1372-1396 "close", 1397-1421 "open" *)
Definition morph_op (morph : ptr -> Z -> Z -> Z -> M ptr) (o : pipeline_op) (width height : Z) (input_data : ptr)
  : M (ptr * Z * Z) :=
  match op_p1 o with
  | None => ret (Null, width, height)
  | Some param =>
      grayscale_data <-- rgba_to_grayscale (u32 width) (u32 height) input_data ;;
      if is_null grayscale_data then ret (Null, width, height) else
      radius <-- lift (to_i32 param) ;;
      changed <-- morph grayscale_data width height radius ;;
      _ <-- free grayscale_data ;;
      if is_null changed then ret (Null, width, height) else
      result <-- single_to_multichannel (u32 width) (u32 height) changed ;;
      _ <-- free changed ;;
      ret (result, width, height)
  end.

(** cli.c:812-1431 [apply_operation] *)
Definition apply_operation (o : pipeline_op) (width height : Z) (input_data : ptr) : M (ptr * Z * Z) :=
  let is n := streq (op_name o) (str n) in
  let w := u32 width in
  let h := u32 height in
  if is "grayscale" then unsized width height (grayscale w h input_data)
  else if is "blur" then
    match op_p1 o with
    | None => ret (Null, width, height)
    | Some param => unsized width height (apply_gaussian_blur exp w h param input_data)
    end
  else if is "resize" then resize_op o width height input_data
  else if is "threshold" then unsized width height (otsu_threshold_rgba w h false input_data)
  else if is "bw_smart" then unsized width height (bw_smart exp w h false input_data)
  else if is "bw_smooth" then unsized width height (bw_smart exp w h true input_data)
  else if is "detect_corners" then detect_op width height input_data
  else if is "draw_corners" then draw_corners_op width height input_data
  else if is "sobel" then sobel_op width height input_data
  else if is "circle" then draw_op draw_circle o width height input_data
  else if is "disk" then draw_op draw_disk o width height input_data
  else if is "watershed" then watershed_op o width height input_data
  else if is "crop" then
    crop_op (given (op_p1 o) && given (op_p2 o) && given (op_p3 o) && given (op_p4 o))
      (num (op_p1 o)) (num (op_p2 o)) (num (op_p3 o)) (num (op_p4 o)) width height input_data
  else if is "extract_document" then extract_auto_op width height input_data
  else if is "extract_document_to" then extract_to_op o width height input_data
  else if is "flip_x" then unsized width height (flip_x w h input_data)
  else if is "flip_y" then unsized width height (flip_y w h input_data)
  else if is "rotate" then rotate_op (given (op_p1 o)) (num (op_p1 o)) width height input_data
  else if is "trim" then trim_op o width height input_data
  else if is "histogram" then histogram_op width height input_data
  else if is "border" then border_op o width height input_data
  else if is "erode" then morph_op binary_erosion_disk o width height input_data
  else if is "dilate" then morph_op binary_dilation_disk o width height input_data
  else if is "close" then morph_op binary_closing_disk o width height input_data
  else if is "open" then morph_op binary_opening_disk o width height input_data
  else ret (Null, width, height).
End Apply.
