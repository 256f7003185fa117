(** * M_Blur: model of fcv_apply_gaussian_blur (src/conversion.c) *)
From Verif Require Import Base F Heap.

Section Blur.
(** The C library's exp. *)
Variable exp : f64 -> f64.

(** M_PI of math.h, 0x1.921fb54442d18p+1 *)
Definition m_pi : f64 := binary_normalize 53 1024 _ _ mode_NE 884279719003555 (-48) false.

(** conversion.c:397-400 *)
Definition sigma (radius : f64) : f32 := f_of_d (ddiv radius (d_of_Z 3)).
Definition two_sigma_sq (radius : f64) : f32 :=
  let sigma_sq := fmul (sigma radius) (sigma radius) in
  fmul (f_of_Z 2) sigma_sq.
Definition sqrt_two_pi_sigma (radius : f64) : f32 :=
  f_of_d (dmul (dsqrt (dmul (d_of_Z 2) m_pi)) (d_of_f (sigma radius))).

(** conversion.c:403-404: one element of the kernel *)
Definition kernel_at (radius : f64) (i : Z) : res f32 :=
  x <- to_i32 (dsub (d_of_Z i) radius) ;;
  xx <- ck32 (x * x) ;;
  nxx <- ck32 (- xx) ;;
  Ok (f_of_d (ddiv (exp (d_of_f (fdiv (f_of_Z nxx) (two_sigma_sq radius)))) (d_of_f (sqrt_two_pi_sigma radius)))).

(** conversion.c:402-405 *)
Definition fill_kernel (radius : f64) (kernel_size : Z) (kernel : buf f32) : res (buf f32) :=
  for_ 0 kernel_size (fun i kernel =>
    v <- kernel_at radius i ;;
    store kernel i v) kernel.

Definition fzero : f32 := B754_zero false.

(** conversion.c:429-434, 474-479: [i]: img_rgba_index; sums of red, green, blue
    and of the weights *)
Definition add_tap (data : buf Z) (kernel : buf f32) (radius : f64) (k i : Z)
    (s : f32 * f32 * f32 * f32) : res (f32 * f32 * f32 * f32) :=
  let '(r_sum, g_sum, b_sum, weight_sum) := s in
  ri <- to_i32 radius ;;
  ki <- ck32 (k + ri) ;;
  weight <- load kernel ki ;;
  let weight_sum := fadd weight_sum weight in
  r <- load data i ;;
  let r_sum := fadd r_sum (fmul (f_of_Z r) weight) in
  g <- load data (u32 (i + 1)) ;;
  let g_sum := fadd g_sum (fmul (f_of_Z g) weight) in
  b <- load data (u32 (i + 2)) ;;
  let b_sum := fadd b_sum (fmul (f_of_Z b) weight) in
  Ok (r_sum, g_sum, b_sum, weight_sum).

(** conversion.c:437-441, 482-486 *)
Definition put_px (out : buf Z) (width x y : Z) (s : f32 * f32 * f32 * f32) : res (buf Z) :=
  let '(r_sum, g_sum, b_sum, weight_sum) := s in
  let rgba_index := u32 (u32 (u32 (y * width) + x) * 4) in
  r <- to_u8_f (fdiv r_sum weight_sum) ;;
  out <- store out rgba_index r ;;
  g <- to_u8_f (fdiv g_sum weight_sum) ;;
  out <- store out (u32 (rgba_index + 1)) g ;;
  b <- to_u8_f (fdiv b_sum weight_sum) ;;
  out <- store out (u32 (rgba_index + 2)) b ;;
  store out (u32 (rgba_index + 3)) 255.

(** conversion.c:415, 465: for (int32_t k = -radius; k <= radius; k++).  The
    condition k <= radius, a comparison of doubles, is replaced by k <=
    trunc(radius); P_Blur.loop_condition shows that they agree. *)
Definition for_k (radius : f64) (body : Z -> f32 * f32 * f32 * f32 -> res (f32 * f32 * f32 * f32)) :
    res (f32 * f32 * f32 * f32) :=
  k0 <- to_i32 (dneg radius) ;;
  for_ k0 (Btrunc radius + 1) body (fzero, fzero, fzero, fzero).

(** conversion.c:416-434 *)
Definition tap_h (width img_length_px : Z) (data : buf Z) (kernel : buf f32) (radius : f64) (x y k : Z)
    (s : f32 * f32 * f32 * f32) : res (f32 * f32 * f32 * f32) :=
  let x_offset := s32 (u32 (x + k)) in
  if (x_offset <? 0) || (width <=? u32 x_offset) then Ok s else
  let img_index := u32 (u32 (y * width) + u32 x_offset) in
  let img_rgba_index := u32 (img_index * 4) in
  if u64 (img_length_px * 4) <=? u32 (img_rgba_index + 2) then Ok s else
  add_tap data kernel radius k img_rgba_index s.

(** conversion.c:408-443 *)
Definition pass_h (width height img_length_px : Z) (data : buf Z) (kernel : buf f32) (radius : f64)
    (out : buf Z) : res (buf Z) :=
  for_ 0 height (fun y out => for_ 0 width (fun x out =>
    s <- for_k radius (fun k s => tap_h width img_length_px data kernel radius x y k s) ;;
    put_px out width x y s) out) out.

(** conversion.c:466-479 *)
Definition tap_v (width height : Z) (temp : buf Z) (kernel : buf f32) (radius : f64) (x y k : Z)
    (s : f32 * f32 * f32 * f32) : res (f32 * f32 * f32 * f32) :=
  let y_offset := s32 (u32 (y + k)) in
  if (y_offset <? 0) || (height <=? u32 y_offset) then Ok s else
  let img_index := u32 (u32 (u32 y_offset * width) + x) in
  let img_rgba_index := u32 (img_index * 4) in
  add_tap temp kernel radius k img_rgba_index s.

(** conversion.c:458-488 *)
Definition pass_v (width height : Z) (temp : buf Z) (kernel : buf f32) (radius : f64)
    (out : buf Z) : res (buf Z) :=
  for_ 0 width (fun x out => for_ 0 height (fun y out =>
    s <- for_k radius (fun k s => tap_v width height temp kernel radius x y k s) ;;
    put_px out width x y s) out) out.

(** conversion.c:345-495 [fcv_apply_gaussian_blur] *)
Definition apply_gaussian_blur (width height : Z) (radius : f64) (data : ptr) : M ptr :=
  if is_null data || (width =? 0) || (height =? 0) then ret Null else
  if dlt radius d0 || negb (dfinite radius) then ret Null else
  if SIZE_MAX / height <? width then ret Null else
  let img_length_px := u64 (width * height) in
  if SIZE_MAX / 4 <? img_length_px then ret Null else
  let img_length_byte := u64 (img_length_px * 4) in
  if deq radius d0 then
    copy <-- malloc_bytes img_length_byte ;;
    if is_null copy then ret Null else
    src <-- get_bytes data ;;
    dst <-- get_bytes copy ;;
    dst <-- lift (bcopy dst 0 src 0 img_length_byte) ;;
    _ <-- put_bytes copy dst ;;
    ret copy
  else
  if dlt (d_of_Z 1000) radius then ret Null else
  blurred_data <-- malloc_bytes img_length_byte ;;
  if is_null blurred_data then ret Null else
  kernel_size <-- lift (to_u32 (dadd (dmul (d_of_Z 2) radius) d1)) ;;
  kernel <-- alloc (OFlt (bnew kernel_size)) ;;
  if is_null kernel then (_ <-- free blurred_data ;; ret Null) else
  kb <-- get_flt kernel ;;
  kb <-- lift (fill_kernel radius kernel_size kb) ;;
  _ <-- put_obj kernel (OFlt kb) ;;
  src <-- get_bytes data ;;
  out <-- get_bytes blurred_data ;;
  out <-- lift (pass_h width height img_length_px src kb radius out) ;;
  _ <-- put_bytes blurred_data out ;;
  temp_data <-- malloc_bytes (u64 (img_length_px * 4)) ;;
  if is_null temp_data then (_ <-- free blurred_data ;; _ <-- free kernel ;; ret Null) else
  src <-- get_bytes blurred_data ;;
  dst <-- get_bytes temp_data ;;
  temp <-- lift (bcopy dst 0 src 0 (u64 (img_length_px * 4))) ;;
  _ <-- put_bytes temp_data temp ;;
  out <-- get_bytes blurred_data ;;
  out <-- lift (pass_v width height temp kb radius out) ;;
  _ <-- put_bytes blurred_data out ;;
  _ <-- free temp_data ;;
  _ <-- free kernel ;;
  ret blurred_data.

End Blur.
