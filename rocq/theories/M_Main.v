(** * Model of [main] of src/cli.c

    Messages are not modelled, except for the warning about binarized pictures.
    The operations of the pipeline are plain values (the table that holds them is
    never freed before the end), and the memory for them and for the joined
    arguments is assumed to be available. *)
From Coq Require Import String.
From Verif Require Import Base F Heap M_Color M_Parse M_Exif M_Cli M_Apply.
Local Open Scope string_scope.
Local Open Scope list_scope.
Local Open Scope Z_scope.

(** C library: strrchr: the text from the last [c] on *)
Definition strrchr (c : Z) (s : cstr) : option cstr :=
  match strchr c (rev s) with Some (a, _) => Some (c :: rev a) | None => None end.

Inductive file_format := PNG | JPEG.

(** A call of stbi_write_png or stbi_write_jpg, and whether the warning of
    cli.c:1634-1639 came before it *)
Record written := mkwritten { w_format : file_format; w_path : cstr; w_width : Z; w_height : Z; w_data : buf Z; w_warned : bool }.

(** cli.c:1560-1561 *)
Definition is_jpeg_input (path : cstr) : bool :=
  match strrchr 46 path with
  | Some ext => streq ext (str ".jpg") || streq ext (str ".jpeg") || streq ext (str ".JPG") || streq ext (str ".JPEG")
  | None => false
  end.
(** cli.c:1627-1647 *)
Definition output_format (path : cstr) : file_format :=
  match strrchr 46 path with
  | Some ext => if streq ext (str ".png") then PNG
                else if streq ext (str ".jpg") || streq ext (str ".jpeg") then JPEG else PNG
  | None => PNG
  end.
(** cli.c:164-173 [pipeline_has_binarization] *)
Definition has_binarization (ops : list pipeline_op) : bool :=
  existsb (fun o => streq (op_name o) (str "threshold") || streq (op_name o) (str "bw_smart") || streq (op_name o) (str "bw_smooth")) ops.

Section Main.
(** See M_Apply, M_Parse *)
Variables (atof : cstr -> f64) (atoi : cstr -> Z) (show2 : f64 -> f64 -> cstr).
Variables (exp : f64 -> f64) (atan2 : f64 -> f64 -> f64) (asin pow2 : f64 -> f64).
Variables (fuel : nat) (identity : ptr).
(** The files; stb_image's decoder (width, height, RGBA pixels; [None]: it fails);
    whether stb_image_write can write a file *)
Variables (file : cstr -> option (list Z)) (decode : option (list Z) -> option (Z * Z * buf Z)).
Variable can_write : written -> bool.

(** stbi_write_png, stbi_write_jpg read the whole picture. *)
Definition read_all (n : Z) (data : buf Z) : res unit :=
  for_ 0 n (fun i _ => _ <- load data i ;; Ok tt) tt.

(** cli.c:1624-1647: [width * 4] is computed in int for PNG *)
Definition save (output_path : cstr) (ops : list pipeline_op) (width height : Z) (result_data : ptr) : M written :=
  let fmt := output_format output_path in
  _ <-- lift (match fmt with PNG => ck32 (width * 4) | JPEG => Ok 0 end) ;;
  data <-- get_bytes result_data ;;
  _ <-- lift (read_all (width * height * 4) data) ;;
  ret (mkwritten fmt output_path width height data
         (match fmt with JPEG => has_binarization ops | PNG => false end)).

(** cli.c:1510-1672 [main]; [args]: argv[1], argv[2], ...  Result: the exit
    status, and what was written *)
Definition main (args : list cstr) : M (Z * option written) :=
  let argc := Z.of_nat (List.length args) + 1 in
  if argc <? 3 then ret (1, None) else
  let input_path := nth 0 args [] in
  let is_detect_corners_only := (argc =? 3) && streq (nth 1 args []) (str "detect_corners") in
  let output_path := last args [] in
  if negb is_detect_corners_only && (argc <? 4) then ret (1, None) else
  let ops_args := skipn 1 (if is_detect_corners_only then args else removelast args) in
  parsed <-- lift (parse_pipeline atof atoi show2 true ops_args) ;;
  match parsed with
  | None => ret (1, None)
  | Some [] => ret (1, None)
  | Some ops =>
      match decode (file input_path) with
      | None => ret (1, None)
      | Some (width, height, pixels) =>
          image_data <-- alloc (OBytes pixels) ;;
          if is_null image_data then ret (1, None) else
          e <-- (if is_jpeg_input input_path then
                   orientation <-- lift (get_exif_orientation fuel (file input_path)) ;;
                   apply_exif orientation width height image_data
                 else ret (image_data, width, height)) ;;
          let '(image_data, width, height) := e in
          r <-- execute_pipeline (apply_operation atof exp atan2 asin pow2 fuel identity) width height ops image_data ;;
          let '(result_data, width, height) := r in
          if is_null result_data then (_ <-- free image_data ;; ret (1, None)) else
          w <-- (if is_detect_corners_only then ret None
                 else w <-- save output_path ops width height result_data ;; ret (Some w)) ;;
          _ <-- free image_data ;;
          _ <-- (if negb (ptr_eqb result_data image_data) then free result_data else ret tt) ;;
          ret (match w with Some w => if can_write w then 0 else 1 | None => 0 end, w)
      end
  end.
End Main.
