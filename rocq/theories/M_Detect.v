(** * M_Detect: model of src/corner_detection.c and src/extract_document.c

    Debug output (DEBUG_LOGGING) is not modelled. *)
From Verif Require Import Base F Heap M_Persp Spec_Corners M_Color M_Morph M_Draw M_Resize M_Blur M_Sobel M_Watershed
  M_Foerstner M_Peaks M_Corners.

(** exit(EXIT_FAILURE), and a failing assert *)
Definition exit_failure {A : Type} : M A := fun _ => Abort.

(** The string literals "000000", "FF0000", "00FF00" *)
Definition hex_black : cstr := [48; 48; 48; 48; 48; 48].
Definition hex_red : cstr := [70; 70; 48; 48; 48; 48].
Definition hex_green : cstr := [48; 48; 70; 70; 48; 48].

(** corner_detection.c:60-79: color_map, color_count.  [i] is four times the counter
    [k] here; i += 4 cannot overflow, as width * height * 4 does not. *)
Definition count_loop (n : Z) (image : buf Z) (color_map : buf Z) : res (buf Z * Z) :=
  for_ 0 n (fun k st =>
    let '(color_map, color_count) := st in
    let i := k * 4 in
    r <- load image i ;;
    g <- load image (i + 1) ;;
    b <- load image (i + 2) ;;
    a <- load image (i + 3) ;;
    if a =? 0 then Ok (color_map, color_count) else
    let color_key := Z.lor (Z.lor (Z.shiftl r 16) (Z.shiftl g 8)) b in
    c <- load color_map color_key ;;
    color_count <- (if c =? 0 then ck32 (color_count + 1) else Ok color_count) ;;
    c <- ck32 (c + 1) ;;
    color_map <- store color_map color_key c ;;
    Ok (color_map, color_count)) (color_map, 0).

(** corner_detection.c:48-83 [count_colors] *)
Definition count_colors (image : ptr) (width height : Z) : M Z :=
  if is_null image || (width <=? 0) || (height <=? 0) then exit_failure else
  color_map <-- alloc (OInts (bconst (256 * 256 * 256) 0)) ;;
  if is_null color_map then ret (-1) else
  n <-- lift (ck32 (width * height)) ;;
  _ <-- lift (ck32 (n * 4)) ;;
  img <-- get_bytes image ;;
  cm <-- get_ints color_map ;;
  r <-- lift (count_loop n img cm) ;;
  _ <-- put_obj color_map (OInts (fst r)) ;;
  _ <-- free color_map ;;
  ret (snd r).

Section Detect.
(** The C library's exp, atan2 and asin. *)
Variables (exp : f64 -> f64) (atan2 : f64 -> f64 -> f64) (asin : f64 -> f64).

(** corner_detection.c:117-126 *)
Definition default_corners (width height : Z) : corners :=
  mkc (d0, d0) (d_of_Z (width - 1), d0) (d_of_Z (width - 1), d_of_Z (height - 1)) (d0, d_of_Z (height - 1)).

(** corner_detection.c:135-193: elevation_map, out_width, out_height *)
Definition elevation (width height : Z) (grayscale_image : ptr) : M (ptr * Z * Z) :=
  r <-- resize (u32 width) (u32 height) (ddiv (d_of_Z 256) (d_of_Z width)) (ddiv (d_of_Z 256) (d_of_Z height))
          256 256 grayscale_image ;;
  let '(resized_image, out_width, out_height) := r in
  _ <-- free grayscale_image ;;
  if is_null resized_image then exit_failure else
  blurred_image <-- apply_gaussian_blur exp out_width out_height (d_of_Z 3) resized_image ;;
  _ <-- free resized_image ;;
  if is_null blurred_image then exit_failure else
  elevation_map <-- sobel_edge_detection out_width out_height 4 blurred_image ;;
  _ <-- free blurred_image ;;
  if is_null elevation_map then exit_failure else
  _ <-- draw_disk out_width out_height 1 (Some hex_black) (d_of_Z 24)
          (ddiv (d_of_Z out_width) (d_of_Z 2)) (ddiv (d_of_Z out_height) (d_of_Z 2)) elevation_map ;;
  ret (elevation_map, out_width, out_height).

(** corner_detection.c:253-259: copy the rows without the border *)
Definition unborder (out_width bordered_width bordered_height : Z) (wide seg : buf Z) : res (buf Z) :=
  for_ 1 (u32 (bordered_height - 1)) (fun y seg =>
    bcopy seg (u32 (u32 (u32 (y - 1) * out_width) * 4)) wide (u32 (u32 (u32 (y * bordered_width) + 1) * 4))
      (u32 (out_width * 4))) seg.

(** corner_detection.c:195-259: segmented_image.  The result of the watershed is
    not checked, and it is not freed unless malloc fails. *)
Definition segment (fuel : nat) (out_width out_height : Z) (elevation_map : ptr) : M ptr :=
  r <-- add_border out_width out_height 1 (Some hex_black) 1 elevation_map 0 0 ;;
  let '(bordered_elevation_map, bordered_width, bordered_height) := r in
  _ <-- free elevation_map ;;
  if is_null bordered_elevation_map then exit_failure else
  markers <-- alloc (OPts (bnew 2)) ;;
  if is_null markers then (_ <-- free bordered_elevation_map ;; exit_failure) else
  mk <-- get_pts markers ;;
  mk <-- lift (store mk 0 (ddiv (d_of_Z bordered_width) (d_of_Z 2), ddiv (d_of_Z bordered_height) (d_of_Z 2))) ;;
  mk <-- lift (store mk 1 (d0, d0)) ;;
  _ <-- put_obj markers (OPts mk) ;;
  segmented_image_wide <-- watershed fuel bordered_width bordered_height bordered_elevation_map markers 2 false ;;
  _ <-- free bordered_elevation_map ;;
  _ <-- free markers ;;
  segmented_image <-- malloc_bytes (u32 (u32 (out_width * out_height) * 4)) ;;
  if is_null segmented_image then (_ <-- free segmented_image_wide ;; exit_failure) else
  wide <-- get_bytes segmented_image_wide ;;
  seg <-- get_bytes segmented_image ;;
  seg <-- lift (unborder out_width bordered_width bordered_height wide seg) ;;
  _ <-- put_bytes segmented_image seg ;;
  ret segmented_image.

(** corner_detection.c:333-335 *)
Definition copy_w (n : Z) (resp w_channel : buf Z) : res (buf Z) :=
  for_u32 0 n (fun i w_channel =>
    v <- load resp (u32 (i * 2)) ;;
    store w_channel i v) w_channel.

(** corner_detection.c:269-341: corner_response *)
Definition response (out_width out_height : Z) (segmented_image : ptr) : M ptr :=
  region_count <-- count_colors segmented_image (s32 out_width) (s32 out_height) ;;
  if negb (region_count =? 2) then (_ <-- free segmented_image ;; exit_failure) else
  segmented_binary <-- convert_to_binary segmented_image (s32 out_width) (s32 out_height) (Some hex_red) (Some hex_green) ;;
  _ <-- free segmented_image ;;
  segmented_closed <-- binary_closing_disk segmented_binary (s32 out_width) (s32 out_height) 12 ;;
  _ <-- free segmented_binary ;;
  if is_null segmented_closed then exit_failure else
  corner_response <-- foerstner_corner out_width out_height segmented_closed (lit 3 2) ;;
  _ <-- free segmented_closed ;;
  if is_null corner_response then exit_failure else
  w_channel <-- malloc_bytes (u32 (out_width * out_height)) ;;
  if is_null w_channel then (_ <-- free corner_response ;; exit_failure) else
  resp <-- get_bytes corner_response ;;
  wb <-- get_bytes w_channel ;;
  wb <-- lift (copy_w (u32 (out_width * out_height)) resp wb) ;;
  _ <-- put_bytes w_channel wb ;;
  _ <-- free w_channel ;;
  ret corner_response.

(** peaks->points, peaks->count *)
Definition get_peaks (p : ptr) : M (ptr * Z) :=
  o <-- get_obj p ;;
  match o with
  | OPeaks pts count => ret (match pts with Some i => Ptr i | None => Null end, count)
  | _ => fun _ => UB BadType
  end.

(** corner_detection.c:367-377: a threshold after one round *)
Definition min_thresh : f64 := lit 1 100.
Definition lower (thresh : f64) : f64 :=
  let t := dsub thresh (lit 5 100) in
  if dlt t min_thresh then min_thresh else t.

(** corner_detection.c:351-380; the loop ends at once when [peaks] is NULL *)
Fixpoint search (fuel : nat) (out_width out_height : Z) (corner_response : ptr) (acc rnd : f64) : M ptr :=
  match fuel with
  | O => fun _ => Hang
  | S fuel =>
      peaks <-- corner_peaks out_width out_height corner_response 16 acc rnd ;;
      if is_null peaks then ret Null else
      pk <-- get_peaks peaks ;;
      if 4 <=? snd pk then ret peaks else
      if dlt min_thresh (lower acc) || dlt min_thresh (lower rnd) then
        _ <-- free (fst pk) ;;
        _ <-- free peaks ;;
        search fuel out_width out_height corner_response (lower acc) (lower rnd)
      else ret peaks
  end.

(** corner_detection.c:416-446: angles[i] *)
Definition angle_at (count i : Z) (pts : buf (f64 * f64)) : res f64 :=
  prev <- load pts (u32 (u32 (i - 1) + count) mod count) ;;
  curr <- load pts i ;;
  next <- load pts (u32 (i + 1) mod count) ;;
  let a_x := dsub (fst prev) (fst curr) in
  let a_y := dsub (snd prev) (snd curr) in
  let b_x := dsub (fst next) (fst curr) in
  let b_y := dsub (snd next) (snd curr) in
  let a_len := dsqrt (dadd (dmul a_x a_x) (dmul a_y a_y)) in
  let b_len := dsqrt (dadd (dmul b_x b_x) (dmul b_y b_y)) in
  if deq a_len d0 || deq b_len d0 then Ok d0 else
  let cross_product := ddiv (dsub (dmul a_x b_y) (dmul a_y b_x)) (dmul a_len b_len) in
  let cross_product := if dlt d1 cross_product then d1 else cross_product in
  let cross_product := if dlt cross_product (dneg d1) then dneg d1 else cross_product in
  Ok (ddiv (dmul (asin cross_product) (d_of_Z 180)) dpi).

(** corner_detection.c:414-450: angles, angle_indices (index, angle_abs) *)
Definition fill_angles (count : Z) (pts : buf (f64 * f64)) (st : buf f64 * buf (Z * f64)) : res (buf f64 * buf (Z * f64)) :=
  for_ 0 count (fun i st =>
    let '(angles, ai) := st in
    a <- angle_at count i pts ;;
    angles <- store angles i a ;;
    ai <- store ai i (i, dabs a) ;;
    Ok (angles, ai)) st.

(** corner_detection.c:453-461 *)
Definition sort_angles (count : Z) (ai : buf (Z * f64)) : res (buf (Z * f64)) :=
  for_ 0 (u32 (count - 1)) (fun i ai =>
    for_ 0 (u32 (u32 (count - 1) - i)) (fun j ai =>
      e <- load ai j ;;
      f <- load ai (u32 (j + 1)) ;;
      if dlt (snd e) (snd f) then
        ai <- store ai j f ;;
        store ai (u32 (j + 1)) e
      else Ok ai) ai) ai.

(** corner_detection.c:464-467 *)
Definition top_4 (ai : buf (Z * f64)) : res (buf Z) :=
  for_ 0 4 (fun i top =>
    e <- load ai i ;;
    store top i (fst e)) (bnew 4).

(** corner_detection.c:470-478 *)
Definition sort_top_4 (top : buf Z) : res (buf Z) :=
  for_ 0 3 (fun i top =>
    for_ 0 (u32 (3 - i)) (fun j top =>
      a <- load top j ;;
      b <- load top (u32 (j + 1)) ;;
      if b <? a then
        top <- store top j b ;;
        store top (u32 (j + 1)) a
      else Ok top) top) top.

(** corner_detection.c:484-491, 500-507: sorted_result[k] scaled *)
Definition corner_at (scale_x scale_y : f64) (pts : buf (f64 * f64)) (k : Z) : res (f64 * f64) :=
  p <- load pts k ;;
  Ok (dmul (fst p) scale_x, dmul (snd p) scale_y).

(** corner_detection.c:483-491, 499-507 with the four indices *)
Definition four_corners (scale_x scale_y : f64) (pts : buf (f64 * f64)) (k0 k1 k2 k3 : Z) : res corners :=
  p0 <- corner_at scale_x scale_y pts k0 ;;
  p1 <- corner_at scale_x scale_y pts k1 ;;
  p2 <- corner_at scale_x scale_y pts k2 ;;
  p3 <- corner_at scale_x scale_y pts k3 ;;
  Ok (mkc p0 p1 p2 p3).

(** corner_detection.c:499-507: i % peaks->count *)
Definition rem_u32 (i count : Z) : res Z := if count =? 0 then UB DivByZero else Ok (i mod count).

(** corner_detection.c:405-508: sorted_corners.  The allocations are not checked;
    the contents of angles and angle_indices are local. *)
Definition choose (scale_x scale_y : f64) (count : Z) (sorted_result : ptr) : M corners :=
  if 4 <? count then
    angles <-- alloc (ODbl (bnew count)) ;;
    angle_indices <-- alloc (OInts (bnew (2 * count))) ;;
    pts <-- get_pts sorted_result ;;
    ab <-- get_dbl angles ;;
    _ <-- get_ints angle_indices ;;
    r <-- lift (fill_angles count pts (ab, bnew count)) ;;
    ai <-- lift (sort_angles count (snd r)) ;;
    top <-- lift (top_4 ai) ;;
    top <-- lift (sort_top_4 top) ;;
    k0 <-- lift (load top 0) ;;
    k1 <-- lift (load top 1) ;;
    k2 <-- lift (load top 2) ;;
    k3 <-- lift (load top 3) ;;
    c <-- lift (four_corners scale_x scale_y pts k0 k1 k2 k3) ;;
    _ <-- free angles ;;
    _ <-- free angle_indices ;;
    ret c
  else
    pts <-- get_pts sorted_result ;;
    k1 <-- lift (rem_u32 1 count) ;;
    k2 <-- lift (rem_u32 2 count) ;;
    k3 <-- lift (rem_u32 3 count) ;;
    lift (four_corners scale_x scale_y pts 0 k1 k2 k3).

(** corner_detection.c:111-607 [fcv_detect_corners]; [fuel] bounds the loops of
    unknown length.  The array peaks->points is not freed at the end. *)
Definition detect_corners (fuel : nat) (image : ptr) (width height : Z) : M corners :=
  if is_null image || (width <=? 0) || (height <=? 0) then exit_failure else
  grayscale_image <-- grayscale (u32 width) (u32 height) image ;;
  if is_null grayscale_image then ret (default_corners width height) else
  e <-- elevation width height grayscale_image ;;
  let '(elevation_map, out_width, out_height) := e in
  segmented_image <-- segment fuel out_width out_height elevation_map ;;
  corner_response <-- response out_width out_height segmented_image ;;
  peaks <-- search fuel out_width out_height corner_response (lit 4 10) (lit 2 10) ;;
  _ <-- free corner_response ;;
  if is_null peaks then exit_failure else
  pk <-- get_peaks peaks ;;
  let '(points, count) := pk in
  sorted_result <-- alloc (OPts (bnew count)) ;;
  _ <-- sort_corners atan2 fuel width height (s32 out_width) (s32 out_height) points count sorted_result ;;
  sorted_corners <-- choose (ddiv (d_of_Z width) (d_of_Z out_width)) (ddiv (d_of_Z height) (d_of_Z out_height))
    count sorted_result ;;
  _ <-- free sorted_result ;;
  _ <-- free peaks ;;
  ret sorted_corners.

(** corner_detection.c:612-621 [fcv_detect_corners_ptr]; the Corners struct is a
    block of four points *)
Definition detect_corners_ptr (fuel : nat) (image : ptr) (width height : Z) : M ptr :=
  c <-- detect_corners fuel image width height ;;
  alloc (OPts (of_list [tl c; tr c; br c; bl c])).

(** The corners as the argument of fcv_calculate_perspective_transform *)
Definition quad (c : corners) : M_Persp.corners f64 := mkcorners (tl c) (tr c) (br c) (bl c).

(** extract_document.c:28-37, 123-132 *)
Definition dst_corners (output_width output_height : Z) : M_Persp.corners f64 :=
  let w := d_of_Z (u32 (output_width - 1)) in
  let h := d_of_Z (u32 (output_height - 1)) in
  mkcorners (d0, d0) (w, d0) (w, h) (d0, h).

(** extract_document.c:60-65, 155-160 *)
Definition is_identity (m : list f64) : bool :=
  deq (mc m 0) d1 && deq (mc m 1) d0 && deq (mc m 2) d0 && deq (mc m 3) d0 && deq (mc m 4) d1 && deq (mc m 5) d0 &&
  deq (mc m 6) d0 && deq (mc m 7) d0 && deq (mc m 8) d1.

(** extract_document.c:27-69, 122-164; [identity]: address of the static identity
    matrix of perspectivetransform.c *)
Definition extract_with (identity : ptr) (width height : Z) (data : ptr) (output_width output_height : Z)
    (detected_corners : corners) : M ptr :=
  transform_matrix <-- calculate_perspective_transform identity
    (Some (dst_corners output_width output_height)) (Some (quad detected_corners)) ;;
  if is_null transform_matrix then ret Null else
  result <-- apply_matrix_3x3 (s32 width) (s32 height) data (s32 output_width) (s32 output_height) transform_matrix ;;
  m <-- get_mat transform_matrix ;;
  _ <-- (if negb (is_identity m) then free transform_matrix else ret tt) ;;
  ret result.

(** extract_document.c:12-70 [fcv_extract_document] *)
Definition extract_document (fuel : nat) (identity : ptr) (width height : Z) (data : ptr)
    (output_width output_height : Z) : M ptr :=
  if is_null data then ret Null else
  detected_corners <-- detect_corners fuel data (s32 width) (s32 height) ;;
  extract_with identity width height data output_width output_height detected_corners.

(** The C library's pow(x, 2) *)
Variable pow2 : f64 -> f64.

(** extract_document.c:89-104: distance of two corners *)
Definition side (p q : f64 * f64) : f64 :=
  dsqrt (dadd (pow2 (dsub (fst p) (fst q))) (pow2 (dsub (snd p) (snd q)))).

(** fmax; for two zeros either may be returned, which makes no difference here *)
Definition fmax (a b : f64) : f64 := if is_nan a then b else if is_nan b then a else if dlt a b then b else a.

(** extract_document.c:111-120: one of the two sizes *)
Definition output_size (a b : f64) : res Z :=
  n <- to_u32 (dadd (fmax a b) (lit 1 2)) ;;
  Ok (if n <? 100 then 100 else n).

(** extract_document.c:72-165 [fcv_extract_document_auto]; yields the result and the
    values written to the output parameters, which are assumed not to be NULL
    ([ow0], [oh0]: their values before). *)
Definition extract_document_auto (fuel : nat) (identity : ptr) (width height : Z) (data : ptr) (ow0 oh0 : Z)
  : M (ptr * Z * Z) :=
  if is_null data then ret (Null, ow0, oh0) else
  c <-- detect_corners fuel data (s32 width) (s32 height) ;;
  ow <-- lift (output_size (side (tr c) (tl c)) (side (br c) (bl c))) ;;
  oh <-- lift (output_size (side (bl c) (tl c)) (side (br c) (tr c))) ;;
  p <-- extract_with identity width height data ow oh c ;;
  ret (p, ow, oh).
End Detect.
