(** * Model of the picture handling of src/cli.c *)
From Verif Require Import Base F Heap M_Geom.

(** cli.c:1558-1602: undo the EXIF orientation; result: image_data, width,
    height.  [stbi_image_free] is [free]. *)
Definition apply_exif (orientation width height : Z) (image_data : ptr) : M (ptr * Z * Z) :=
  if (1 <? orientation) && (orientation <=? 8) then
    let old_width := u32 width in
    let old_height := u32 height in
    rotated_data <--
      (if orientation =? 2 then flip_x old_width old_height image_data
       else if orientation =? 3 then rotate_180 old_width old_height image_data
       else if orientation =? 4 then flip_y old_width old_height image_data
       else if orientation =? 5 then transpose old_width old_height image_data
       else if orientation =? 6 then rotate_90_cw old_width old_height image_data
       else if orientation =? 7 then transverse old_width old_height image_data
       else rotate_270_cw old_width old_height image_data) ;;
    let width' := if 5 <=? orientation then s32 old_height else width in
    let height' := if 5 <=? orientation then s32 old_width else height in
    if is_null rotated_data then ret (image_data, width', height')
    else _ <-- free image_data ;; ret (rotated_data, width', height')
  else ret (image_data, width, height).

(** cli.c:1230-1236: malloc and memcpy of the whole picture *)
Definition copy_picture (width height : Z) (input_data : ptr) : M ptr :=
  let size := u64 (u64 (u64 width * u64 height) * 4) in
  p <-- malloc_bytes size ;;
  if is_null p then ret Null else
  src <-- get_bytes input_data ;;
  dst <-- get_bytes p ;;
  dst' <-- lift (bcopy dst 0 src 0 size) ;;
  _ <-- put_bytes p dst' ;;
  ret p.

(** cli.c:1217-1259: the operation "rotate" of [apply_operation]; the
    conversion of the angle to int is undefined out of range *)
Definition rotate_op (has_param : bool) (param : f64) (width height : Z) (input_data : ptr) : M (ptr * Z * Z) :=
  if negb has_param then ret (Null, width, height) else
  angle <-- lift (to_i32 param) ;;
  angle <-- lift (ck32 (Z.rem angle 360 + 360)) ;;
  let angle := Z.rem angle 360 in
  if negb (angle =? 0) && negb (angle =? 90) && negb (angle =? 180) && negb (angle =? 270)
  then ret (Null, width, height) else
  if angle =? 0 then
    p <-- copy_picture width height input_data ;; ret (p, width, height)
  else if angle =? 90 then
    p <-- rotate_90_cw (u32 width) (u32 height) input_data ;;
    if is_null p then ret (p, width, height) else ret (p, height, s32 (u32 width))
  else if angle =? 180 then
    p <-- rotate_180 (u32 width) (u32 height) input_data ;; ret (p, width, height)
  else
    p <-- rotate_270_cw (u32 width) (u32 height) input_data ;;
    if is_null p then ret (p, width, height) else ret (p, height, s32 (u32 width)).

(** cli.c:1123-1165: the operation "crop" of [apply_operation] *)
Definition crop_op (has_all : bool) (param param2 param3 param4 : f64) (width height : Z) (input_data : ptr) : M (ptr * Z * Z) :=
  if negb has_all then ret (Null, width, height) else
  x_offset <-- lift (to_i32 param) ;;
  y_offset <-- lift (to_i32 param2) ;;
  crop_width <-- lift (to_u32 param3) ;;
  crop_height <-- lift (to_u32 param4) ;;
  let x := if x_offset <? 0 then 0 else u32 x_offset in
  let y := if y_offset <? 0 then 0 else u32 y_offset in
  if (u32 width <=? x) || (u32 height <=? y) then ret (Null, width, height) else
  let max_width := u32 (u32 width - x) in
  let max_height := u32 (u32 height - y) in
  let crop_width := if max_width <? crop_width then max_width else crop_width in
  let crop_height := if max_height <? crop_height then max_height else crop_height in
  p <-- crop (u32 width) (u32 height) 4 input_data x y crop_width crop_height ;;
  if is_null p then ret (p, width, height) else ret (p, s32 crop_width, s32 crop_height).

(** [p != q] *)
Definition ptr_eqb (p q : ptr) : bool :=
  match p, q with Null, Null => true | Ptr i, Ptr j => i =? j | _, _ => false end.

(** cli.c:1492-1494 and 1499-1501 *)
Definition free_temp (temp_data input_data : ptr) : M unit :=
  if negb (is_null temp_data) && negb (ptr_eqb temp_data input_data) then free temp_data else ret tt.

(** cli.c:1433-1508 [execute_pipeline] for an arbitrary [apply_operation];
    output and timing are not modelled *)
Section pipeline.
Context {op : Type} (apply_operation : op -> Z -> Z -> ptr -> M (ptr * Z * Z)).

Fixpoint pipeline_loop (ops : list op) (width height : Z) (current_data temp_data input_data : ptr) : M (ptr * Z * Z) :=
  match ops with
  | [] => ret (current_data, width, height)
  | o :: ops =>
      r <-- apply_operation o width height current_data ;;
      let '(result, width, height) := r in
      if is_null result then
        _ <-- free_temp temp_data input_data ;; ret (Null, width, height)
      else
        _ <-- free_temp temp_data input_data ;;
        pipeline_loop ops width height result result input_data
  end.
Definition execute_pipeline (width height : Z) (ops : list op) (input_data : ptr) : M (ptr * Z * Z) :=
  pipeline_loop ops width height input_data Null input_data.

(** cli.c:1554-1674: [main] from the loaded picture to its end; [write_ok]:
    outcome of stbi_write_png/jpg (or no output requested).  Result: the exit
    status. *)
Definition process_image (is_jpeg : bool) (orientation width height : Z) (ops : list op) (write_ok : bool) (image_data : ptr) : M Z :=
  e <-- (if is_jpeg then apply_exif orientation width height image_data else ret (image_data, width, height)) ;;
  let '(image_data, width, height) := e in
  r <-- execute_pipeline width height ops image_data ;;
  let '(result_data, width, height) := r in
  if is_null result_data then
    _ <-- free image_data ;; ret 1
  else
    _ <-- free image_data ;;
    _ <-- (if negb (ptr_eqb result_data image_data) then free result_data else ret tt) ;;
    ret (if write_ok then 0 else 1).
End pipeline.
