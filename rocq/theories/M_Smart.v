(** * Model of fcv_bw_smart (src/conversion.c:499-594) *)
From Verif Require Import Base F Heap M_Color M_Otsu M_Blur.

Section Smart.
(** The C library's exp. *)
Variable dexp : f64 -> f64.

(** conversion.c:562-569 *)
Definition clamp_px (v : Z) : Z := if v <? 0 then 0 else if 255 <? v then 255 else v.

(** conversion.c:557-575; the counter is uint32_t, the bound size_t, the index
    uint32_t.  The int expression cannot overflow: both operands are bytes. *)
Definition high_freq_loop (img_length_px : Z) (gray blur dst : buf Z) : res (buf Z) :=
  for_u32 0 img_length_px (fun i dst =>
    let rgba_idx := u32 (i * 4) in
    g <- load gray rgba_idx ;;
    b <- load blur rgba_idx ;;
    put_gray32 dst rgba_idx (u8 (clamp_px (127 + g - b)))) dst.

(** conversion.c:530 *)
Definition blur_radius (width height : Z) : f64 :=
  dmul (dsqrt (dmul (d_of_Z width) (d_of_Z height))) (lit 1 10).

(** conversion.c:513-594 [fcv_bw_smart] *)
Definition bw_smart (width height : Z) (use_double_threshold : bool) (data : ptr) : M ptr :=
  if is_null data || (width =? 0) || (height =? 0) then ret Null else
  grayscale_data <-- grayscale width height data ;;
  if is_null grayscale_data then ret Null else
  blurred_data <-- apply_gaussian_blur dexp width height (blur_radius width height) grayscale_data ;;
  if is_null blurred_data then (_ <-- free grayscale_data ;; ret Null) else
  if SIZE_MAX / height <? width
  then (_ <-- free grayscale_data ;; _ <-- free blurred_data ;; ret Null) else
  let img_length_px := u64 (width * height) in
  if SIZE_MAX / 4 <? img_length_px
  then (_ <-- free grayscale_data ;; _ <-- free blurred_data ;; ret Null) else
  high_freq_data <-- malloc_bytes (u64 (img_length_px * 4)) ;;
  if is_null high_freq_data
  then (_ <-- free grayscale_data ;; _ <-- free blurred_data ;; ret Null) else
  gb <-- get_bytes grayscale_data ;;
  bb <-- get_bytes blurred_data ;;
  hb <-- get_bytes high_freq_data ;;
  hb <-- lift (high_freq_loop img_length_px gb bb hb) ;;
  _ <-- put_bytes high_freq_data hb ;;
  _ <-- free grayscale_data ;;
  _ <-- free blurred_data ;;
  final_data <-- otsu_threshold_rgba width height use_double_threshold high_freq_data ;;
  _ <-- free high_freq_data ;;
  ret final_data.

End Smart.
