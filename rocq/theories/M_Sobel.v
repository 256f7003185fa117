(** * M_Sobel: model of src/sobel_edge_detection.c *)
From Verif Require Import Base F Heap M_Color.

(** sobel_edge_detection.c:78-79 *)
Definition sobel_x (ky kx : Z) : Z :=
  nth (Z.to_nat (kx + 1)) (nth (Z.to_nat (ky + 1)) [[-1; 0; 1]; [-2; 0; 2]; [-1; 0; 1]] []) 0.
Definition sobel_y (ky kx : Z) : Z :=
  nth (Z.to_nat (kx + 1)) (nth (Z.to_nat (ky + 1)) [[-1; -2; -1]; [0; 0; 0]; [1; 2; 1]] []) 0.

(** sobel_edge_detection.c:103-118: the coordinate [x + k] within [0, size) *)
Definition clamp_coord (x k size : Z) : Z :=
  let px := s32 (u32 (x + k)) in
  let px := if px <? 0 then 0 else px in
  if size <=? u32 px then s32 (u32 (size - 1)) else px.

(** sobel_edge_detection.c:103-122: body of the loops over the kernel *)
Definition tap (g : buf Z) (width height x y ky kx : Z) (s : Z * Z) : res (Z * Z) :=
  let '(gx, gy) := s in
  let px := clamp_coord x kx width in
  let py := clamp_coord y ky height in
  pixel <- load g (u64 (u64 (u64 py * width) + u64 px)) ;;
  a <- ck32 (pixel * sobel_x ky kx) ;;
  gx <- ck32 (gx + a) ;;
  a <- ck32 (pixel * sobel_y ky kx) ;;
  gy <- ck32 (gy + a) ;;
  Ok (gx, gy).

(** sobel_edge_detection.c:97-124: gx, gy *)
Definition gradient (g : buf Z) (width height x y : Z) : res (Z * Z) :=
  for_ (-1) 2 (fun ky s => for_ (-1) 2 (fun kx s => tap g width height x y ky kx s) s) (0, 0).

(** sobel_edge_detection.c:126 *)
Definition magnitude (gx gy : Z) : f64 :=
  dsqrt (dadd (dmul (d_of_Z gx) (d_of_Z gx)) (dmul (d_of_Z gy) (d_of_Z gy))).

(** sobel_edge_detection.c:91-136: magnitudes, min_magnitude, max_magnitude *)
Definition first_pass (g : buf Z) (width height : Z) (mags : buf f64) : res (buf f64 * f64 * f64) :=
  for_ 0 height (fun y s => for_ 0 width (fun x s =>
    let '(mags, mn, mx) := s in
    gr <- gradient g width height x y ;;
    let m := magnitude (fst gr) (snd gr) in
    mags <- store mags (u64 (u64 (y * width) + x)) m ;;
    let mn := if dlt m mn then m else mn in
    let mx := if dlt mx m then m else mx in
    Ok (mags, mn, mx)) s) (mags, dinf, d0).

(** sobel_edge_detection.c:139-142 *)
Definition mag_range (mn mx : f64) : f64 :=
  let range := dsub mx mn in
  if deq range d0 then d1 else range.

(** sobel_edge_detection.c:149-158 *)
Definition final_magnitude (m mn range : f64) : res Z :=
  f <- to_i32 (dmul (ddiv (dsub m mn) range) (d_of_Z 255)) ;;
  let f := if f <? 0 then 0 else f in
  let f := if 255 <? f then 255 else f in
  Ok (u8 f).

(** sobel_edge_detection.c:144-162 *)
Definition second_pass (width height : Z) (mags : buf f64) (mn range : f64) (out : buf Z) : res (buf Z) :=
  for_ 0 height (fun y out => for_ 0 width (fun x out =>
    m <- load mags (u64 (u64 (y * width) + x)) ;;
    f <- final_magnitude m mn range ;;
    store out (u64 (u64 (y * width) + x)) f) out) out.

(** sobel_edge_detection.c:68-170: the rest once the gray picture is there;
    [allocated_grayscale]: free it in the end *)
Definition sobel_gray (width height : Z) (grayscale_data : ptr) (allocated_grayscale : bool) : M ptr :=
  let img_length_px := u64 (width * height) in
  sobel_data <-- malloc_bytes img_length_px ;;
  if is_null sobel_data then
    (_ <-- (if allocated_grayscale then free grayscale_data else ret tt) ;; ret Null)
  else
  magnitudes <-- alloc (ODbl (bnew img_length_px)) ;;
  if is_null magnitudes then
    (_ <-- (if allocated_grayscale then free grayscale_data else ret tt) ;; _ <-- free sobel_data ;; ret Null)
  else
  g <-- get_bytes grayscale_data ;;
  mags <-- get_dbl magnitudes ;;
  r <-- lift (first_pass g width height mags) ;;
  let '(mags, mn, mx) := r in
  _ <-- put_obj magnitudes (ODbl mags) ;;
  out <-- get_bytes sobel_data ;;
  out <-- lift (second_pass width height mags mn (mag_range mn mx) out) ;;
  _ <-- put_bytes sobel_data out ;;
  _ <-- free magnitudes ;;
  _ <-- (if allocated_grayscale then free grayscale_data else ret tt) ;;
  ret sobel_data.

(** sobel_edge_detection.c:31-170 [fcv_sobel_edge_detection] *)
Definition sobel_edge_detection (width height channels : Z) (data : ptr) : M ptr :=
  if is_null data || (width =? 0) || (height =? 0) || (channels =? 0) then ret Null else
  if SIZE_MAX / height <? width then ret Null else
  let img_length_px := u64 (width * height) in
  if SIZE_MAX / 8 <? img_length_px then ret Null else
  if channels =? 1 then sobel_gray width height data false
  else
    grayscale_data <-- rgba_to_grayscale width height data ;;
    if is_null grayscale_data then ret Null else
    sobel_gray width height grayscale_data true.
