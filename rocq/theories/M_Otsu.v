(** * Model of Otsu's thresholding (src/conversion.c:253-335) *)
From Verif Require Import Base F Heap M_Color.

Definition f0 : f32 := B754_zero false.
Definition f1 : f32 := f_of_Z 1.

(** conversion.c:279-282: [(float)histogram[i] / img_length_px]; the size_t is
    converted to float. *)
Definition norm_loop (hist : buf Z) (img_length_px : Z) : res (buf f32) :=
  for_ 0 256 (fun i hn =>
    c <- load hist i ;;
    store hn i (fdiv (f_of_Z c) (f_of_Z img_length_px))) (bconst 256 f0).

(** conversion.c:284-288 *)
Definition mean_loop (hn : buf f32) : res f32 :=
  for_ 0 256 (fun i gm =>
    v <- load hn i ;;
    Ok (fadd gm (fmul (f_of_Z i) v))) f0.

(** Loop state of conversion.c:290-314. *)
Record otsu_st := mkotsu { cum_sum : f32; cum_mean : f32; max_var : f32; opt : Z }.

(** conversion.c:295-314, one iteration *)
Definition otsu_step (hn : buf f32) (global_mean : f32) (i : Z) (o : otsu_st) : res otsu_st :=
  v <- load hn i ;;
  let cs := fadd (cum_sum o) v in
  let cm := fadd (cum_mean o) (fmul (f_of_Z i) v) in
  if feq cs f0 || feq cs f1 then Ok (mkotsu cs cm (max_var o) (opt o)) else
  let mean1 := fdiv cm cs in
  let mean2 := fdiv (fsub global_mean cm) (fsub f1 cs) in
  let class_variance :=
    fmul (fmul (fmul cs (fsub f1 cs)) (fsub mean1 mean2)) (fsub mean1 mean2) in
  if flt (max_var o) class_variance then Ok (mkotsu cs cm class_variance i)
  else Ok (mkotsu cs cm (max_var o) (opt o)).

(** conversion.c:279-314: optimal threshold of a histogram *)
Definition otsu_threshold (hist : buf Z) (img_length_px : Z) : res Z :=
  hn <- norm_loop hist img_length_px ;;
  global_mean <- mean_loop hn ;;
  o <- for_ 0 256 (otsu_step hn global_mean) (mkotsu f0 f0 f0 0) ;;
  Ok (opt o).

(** conversion.c:318-328; the int arguments are converted to uint8_t and the
    size_t length to uint32_t by the calls. *)
Definition otsu_apply (use_double_threshold : bool) (img_length_px t : Z) (g : buf Z) : res (buf Z) :=
  if use_double_threshold
  then apply_double_threshold (u32 img_length_px) (u8 (t - 16)) (u8 (t + 16)) g
  else apply_global_threshold (u32 img_length_px) (u8 t) g.

(** conversion.c:253-335 [fcv_otsu_threshold_rgba] *)
Definition otsu_threshold_rgba (width height : Z) (use_double_threshold : bool) (data : ptr) : M ptr :=
  if is_null data || (width =? 0) || (height =? 0) then ret Null else
  if SIZE_MAX / height <? width then ret Null else
  grayscale_img <-- rgba_to_grayscale width height data ;;
  if is_null grayscale_img then ret Null else
  let img_length_px := u64 (width * height) in
  g <-- get_bytes grayscale_img ;;
  hist <-- lift (histogram_loop img_length_px g) ;;
  t <-- lift (otsu_threshold hist img_length_px) ;;
  g' <-- lift (otsu_apply use_double_threshold img_length_px t g) ;;
  _ <-- put_bytes grayscale_img g' ;;
  mono <-- single_to_multichannel width height grayscale_img ;;
  _ <-- free grayscale_img ;;
  ret mono.
