(** * Model of src/draw.c *)
From Verif Require Import Base F Heap M_Color.

(** draw.c:40, 329: [(uint8_t)(0.299 * r + 0.587 * g + 0.114 * b)] *)
Definition draw_luma (r g b : Z) : res Z :=
  to_u8 (dadd (dadd (dmul (lit 299 1000) (d_of_Z r)) (dmul (lit 587 1000) (d_of_Z g)))
              (dmul (lit 114 1000) (d_of_Z b))).

(** draw.c:21-51 [fcv_set_circle_pixel] on a live buffer *)
Definition set_circle_pixel (width height channels : Z) (col : Z * Z * Z) (px py : Z) (data : buf Z)
  : res (buf Z) :=
  let '(r, g, b) := col in
  if (width =? 0) || (height =? 0) || (channels =? 0) then Ok data else
  if (0 <=? px) && (px <? s32 width) && (0 <=? py) && (py <? s32 height) then
    let i := u64 (u64 (u64 (py * width) + px) * channels) in
    if channels =? 1 then
      v <- draw_luma r g b ;;
      store data i v
    else if 3 <=? channels then
      data <- store data i r ;;
      data <- store data (u64 (i + 1)) g ;;
      data <- store data (u64 (i + 2)) b ;;
      if channels =? 4 then store data (u64 (i + 3)) 255 else Ok data
    else Ok data
  else Ok data.

(** draw.c:56-77 [fcv_draw_circle_points]; [setp] is [fcv_set_circle_pixel] with
    the image and colour arguments filled in *)
Definition draw_circle_points (setp : Z -> Z -> buf Z -> res (buf Z)) (cx cy x y : Z) (data : buf Z)
  : res (buf Z) :=
  xpx <- ck32 (cx + x) ;; ypy <- ck32 (cy + y) ;;
  data <- setp xpx ypy data ;;
  xmx <- ck32 (cx - x) ;;
  data <- setp xmx ypy data ;;
  ymy <- ck32 (cy - y) ;;
  data <- setp xpx ymy data ;;
  data <- setp xmx ymy data ;;
  xpy <- ck32 (cx + y) ;; ypx <- ck32 (cy + x) ;;
  data <- setp xpy ypx data ;;
  xmy <- ck32 (cx - y) ;;
  data <- setp xmy ypx data ;;
  ymx <- ck32 (cy - x) ;;
  data <- setp xpy ymx data ;;
  setp xmy ymx data.

(** draw.c:96-99, 104-107: one of the loops of [fcv_fill_disk_lines], over
    [cx - x .. cx + x] in the rows [cy + y] and [cy - y] *)
Definition fill_lines (setp : Z -> Z -> buf Z -> res (buf Z)) (cx cy x y : Z) (data : buf Z) : res (buf Z) :=
  lo <- ck32 (cx - x) ;;
  hi <- ck32 (cx + x) ;;
  for_ lo (hi + 1) (fun i data =>
    yp <- ck32 (cy + y) ;;
    data <- setp i yp data ;;
    ym <- ck32 (cy - y) ;;
    data <- setp i ym data ;;
    _ <- ck32 (i + 1) ;;
    Ok data) data.

(** draw.c:82-109 [fcv_fill_disk_lines] *)
Definition fill_disk_lines (setp : Z -> Z -> buf Z -> res (buf Z)) (cx cy x y : Z) (data : buf Z)
  : res (buf Z) :=
  data <- fill_lines setp cx cy x y data ;;
  if negb (x =? y) then fill_lines setp cx cy y x data else Ok data.

(** draw.c:158-188 and 238-256: Bresenham's loop, for either shape *)
Definition bresenham (shape : Z -> Z -> buf Z -> res (buf Z)) (radius : Z) (data : buf Z) : res (buf Z) :=
  t <- ck32 (2 * radius) ;;
  d0 <- ck32 (3 - t) ;;
  data <- shape 0 radius data ;;
  while2 32 (fun '(x, y, d, data) =>
    if x <=? y then
      x <- ck32 (x + 1) ;;
      if 0 <? d then
        y <- ck32 (y - 1) ;;
        t <- ck32 (x - y) ;;
        t <- ck32 (4 * t) ;;
        t <- ck32 (d + t) ;;
        d <- ck32 (t + 10) ;;
        data <- shape x y data ;;
        Ok (inl (x, y, d, data))
      else
        t <- ck32 (4 * x) ;;
        t <- ck32 (d + t) ;;
        d <- ck32 (t + 6) ;;
        data <- shape x y data ;;
        Ok (inl (x, y, d, data))
    else Ok (inr data)) (0, radius, d0, data).

(** draw.c:125-189 and 205-257: the common text of [fcv_draw_circle] and
    [fcv_draw_disk] *)
Definition draw_shape
    (shape : (Z -> Z -> buf Z -> res (buf Z)) -> Z -> Z -> Z -> Z -> buf Z -> res (buf Z))
    (width height channels : Z) (hex_color : option cstr) (radius center_x center_y : f64) (data : ptr)
  : M unit :=
  match hex_color with
  | None => ret tt
  | Some hex =>
      if is_null data || (width =? 0) || (height =? 0) || (channels =? 0) then ret tt else
      if dlt radius d0 || negb (dfinite radius) || negb (dfinite center_x) || negb (dfinite center_y)
      then ret tt else
      if dlt (d_of_Z (INT_MAX / 2)) radius then ret tt else
      col <-- lift (parse_hex_color hex) ;;
      ri <-- lift (to_i32 radius) ;;
      cx <-- lift (to_i32 center_x) ;;
      cy <-- lift (to_i32 center_y) ;;
      b <-- get_bytes data ;;
      b' <-- lift (bresenham (shape (set_circle_pixel width height channels col) cx cy) ri b) ;;
      put_bytes data b'
  end.
Definition draw_circle := draw_shape draw_circle_points.
Definition draw_disk := draw_shape fill_disk_lines.

(** draw.c:322-340: the filling loop of [fcv_add_border].  The loop counters
    and indices are uint32_t. *)
Definition border_fill (ow oh channels : Z) (col : Z * Z * Z) (data : buf Z) : res (buf Z) :=
  let '(r, g, b) := col in
  for_ 0 oh (fun y data => for_ 0 ow (fun x data =>
    let i := u32 (u32 (u32 (y * ow) + x) * channels) in
    if channels =? 1 then
      v <- draw_luma r g b ;;
      store data i v
    else if 3 <=? channels then
      data <- store data i r ;;
      data <- store data (u32 (i + 1)) g ;;
      data <- store data (u32 (i + 2)) b ;;
      if channels =? 4 then store data (u32 (i + 3)) 255 else Ok data
    else Ok data) data) data.

(** draw.c:342-353: copying the picture into the middle *)
Definition border_copy (width height channels bw ow : Z) (src data : buf Z) : res (buf Z) :=
  for_ 0 height (fun y data => for_ 0 width (fun x data =>
    let si := u32 (u32 (u32 (y * width) + x) * channels) in
    let di := u32 (u32 (u32 (u32 (y + bw) * ow) + u32 (x + bw)) * channels) in
    for_ 0 channels (fun c data =>
      v <- load src (u32 (si + c)) ;;
      store data (u32 (di + c)) v) data) data) data.

(** draw.c:273-356 [fcv_add_border].  Result: pointer, *output_width,
    *output_height; [ow0], [oh0] are the values they had before the call (the
    two output pointers themselves are assumed not NULL). *)
Definition add_border (width height channels : Z) (hex_color : option cstr) (border_width : Z)
    (input_data : ptr) (ow0 oh0 : Z) : M (ptr * Z * Z) :=
  match hex_color with
  | None => ret (Null, ow0, oh0)
  | Some hex =>
      if is_null input_data || (border_width =? 0) || (channels =? 0) then ret (Null, ow0, oh0) else
      if (width =? 0) || (height =? 0) then ret (Null, ow0, oh0) else
      if ((4294967295 - width) / 2 <? border_width) || ((4294967295 - height) / 2 <? border_width)
      then ret (Null, ow0, oh0) else
      col <-- lift (parse_hex_color hex) ;;
      let ow := u32 (width + u32 (2 * border_width)) in
      let oh := u32 (height + u32 (2 * border_width)) in
      if SIZE_MAX / oh <? ow then ret (Null, ow, oh) else
      let num_pixels := u64 (ow * oh) in
      if SIZE_MAX / channels <? num_pixels then ret (Null, ow, oh) else
      p <-- malloc_bytes (u64 (num_pixels * channels)) ;;
      if is_null p then ret (Null, ow, oh) else
      out <-- get_bytes p ;;
      out <-- lift (border_fill ow oh channels col out) ;;
      src <-- get_bytes input_data ;;
      out <-- lift (border_copy width height channels border_width ow src out) ;;
      _ <-- put_bytes p out ;;
      ret (p, ow, oh)
  end.
