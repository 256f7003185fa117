(** * Model of src/histogram.c *)
From Verif Require Import Base F Heap.

(** [h[v]++] on a uint32_t array *)
Definition bump (h : buf Z) (v : Z) : res (buf Z) :=
  k <- load h v ;;
  store h v (u32 (k + 1)).

(** histogram.c:71-73 *)
Definition alpha_loop (output : buf Z) : res (buf Z) :=
  for_ 0 (256 * 200) (fun i output => store output (u32 (u32 (i * 4) + 3)) 255) output.

(** histogram.c:82-91; [false] once a pixel is not gray *)
Definition is_gray_loop (img_size : Z) (data : buf Z) : res bool :=
  r <- for_brk 0 img_size (fun i (_ : unit) =>
    let idx := u64 (i * 4) in
    v0 <- load data idx ;;
    v1 <- load data (u64 (idx + 1)) ;;
    if negb (v0 =? v1) then Ok (inr tt) else
    v2 <- load data (u64 (idx + 2)) ;;
    if negb (v0 =? v2) then Ok (inr tt) else Ok (inl tt)) tt ;;
  match r with inl _ => Ok true | inr _ => Ok false end.

(** histogram.c:79, 93-106 *)
Definition gray_counts (img_size channels : Z) (data : buf Z) : res (buf Z) :=
  for_ 0 img_size (fun i h =>
    value <- (if channels =? 1 then load data i else load data (u64 (i * 4))) ;;
    bump h value) (bconst 256 0).

(** histogram.c:76-78, 107-117 *)
Definition rgb_counts (img_size channels : Z) (data : buf Z) : res (buf Z * buf Z * buf Z) :=
  for_ 0 img_size (fun i '(hr, hg, hb) =>
    let idx := u64 (i * channels) in
    r <- load data idx ;;
    hr <- bump hr r ;;
    if 3 <=? channels then
      g <- load data (u64 (idx + 1)) ;;
      hg <- bump hg g ;;
      b <- load data (u64 (idx + 2)) ;;
      hb <- bump hb b ;;
      Ok (hr, hg, hb)
    else Ok (hr, hg, hb)) (bconst 256 0, bconst 256 0, bconst 256 0).

(** histogram.c:120-127 *)
Definition gray_max (h : buf Z) : res Z :=
  for_ 0 256 (fun i max_count =>
    k <- load h i ;;
    Ok (if max_count <? k then k else max_count)) 0.

(** histogram.c:128-142 *)
Definition rgb_max (channels : Z) (hr hg hb : buf Z) : res Z :=
  for_ 0 256 (fun i max_count =>
    k <- load hr i ;;
    let max_count := if max_count <? k then k else max_count in
    if 3 <=? channels then
      k <- load hg i ;;
      let max_count := if max_count <? k then k else max_count in
      k <- load hb i ;;
      Ok (if max_count <? k then k else max_count)
    else Ok max_count) 0.

(** histogram.c:154-161 and 181-206: one pixel of a bar *)
Definition bar_px (x y r g b : Z) (output : buf Z) : res (buf Z) :=
  let output_y := u32 (200 - 1 - y) in
  let output_idx := u32 (u32 (u32 (output_y * 256) + x) * 4) in
  output <- store output output_idx r ;;
  output <- store output (u32 (output_idx + 1)) g ;;
  output <- store output (u32 (output_idx + 2)) b ;;
  store output (u32 (output_idx + 3)) 255.

(** histogram.c:149-163 *)
Definition gray_bars (h : buf Z) (max_count : Z) (output : buf Z) : res (buf Z) :=
  for_ 0 256 (fun x output =>
    k <- load h x ;;
    bar_height <- udiv (u32 (k * 200)) max_count ;;
    for_ 0 bar_height (fun y output => bar_px x y 255 255 255 output) output) output.

(** histogram.c:164-209 *)
Definition rgb_bars (channels : Z) (hr hg hb : buf Z) (max_count : Z) (output : buf Z) : res (buf Z) :=
  for_ 0 256 (fun x output =>
    k <- load hr x ;;
    bar_height_r <- udiv (u32 (k * 200)) max_count ;;
    bar_height_g <- (if 3 <=? channels then k <- load hg x ;; udiv (u32 (k * 200)) max_count else Ok 0) ;;
    bar_height_b <- (if 3 <=? channels then k <- load hb x ;; udiv (u32 (k * 200)) max_count else Ok 0) ;;
    let m := bar_height_r in
    let m := if m <? bar_height_g then bar_height_g else m in
    let m := if m <? bar_height_b then bar_height_b else m in
    for_ 0 m (fun y output =>
      let r := if y <? bar_height_r then 255 else 0 in
      let g := if (3 <=? channels) && (y <? bar_height_g) then 255 else 0 in
      let b := if (3 <=? channels) && (y <? bar_height_b) then 255 else 0 in
      bar_px x y r g b output) output) output.

(** histogram.c:75-211: counting and drawing *)
Definition hist_draw (img_size channels : Z) (data output : buf Z) : res (buf Z) :=
  is_grayscale <- (if channels =? 4 then is_gray_loop img_size data else Ok (channels =? 1)) ;;
  if (is_grayscale : bool) then
    h <- gray_counts img_size channels data ;;
    max_count <- gray_max h ;;
    if max_count =? 0 then Ok output else gray_bars h max_count output
  else
    hs <- rgb_counts img_size channels data ;;
    let '(hr, hg, hb) := hs in
    max_count <- rgb_max channels hr hg hb ;;
    if max_count =? 0 then Ok output else rgb_bars channels hr hg hb max_count output.

(** histogram.c:27-212 [fcv_generate_histogram]; result, *out_width,
    *out_height (values [ow0], [oh0] before the call; both pointers assumed not
    NULL) *)
Definition generate_histogram (width height channels : Z) (data : ptr) (ow0 oh0 : Z) : M (ptr * Z * Z) :=
  if is_null data then ret (Null, ow0, oh0) else
  if (width =? 0) || (height =? 0) || (channels =? 0) then ret (Null, ow0, oh0) else
  if SIZE_MAX / height <? width then ret (Null, ow0, oh0) else
  let img_size := u64 (width * height) in
  if SIZE_MAX / channels <? img_size then ret (Null, ow0, oh0) else
  p <-- alloc (OBytes (bconst (256 * 200 * 4) 0)) ;;
  if is_null p then ret (Null, 256, 200) else
  output <-- get_bytes p ;;
  output <-- lift (alpha_loop output) ;;
  src <-- get_bytes data ;;
  output <-- lift (hist_draw img_size channels src output) ;;
  _ <-- put_bytes p output ;;
  ret (p, 256, 200).
