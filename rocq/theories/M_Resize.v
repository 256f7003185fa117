(** * M_Resize: model of fcv_resize (src/conversion.c:608-794) *)
From Verif Require Import Base F Heap.

Definition half : f64 := lit 1 2.

(** conversion.c:664-665, 739-740: position in the source of the output column
    or row [o] *)
Definition src_pos (o : Z) (r : f64) : f64 := dsub (ddiv (dadd (d_of_Z o) half) r) half.

(** conversion.c:667-691: the window of the source along one axis: start and end
    as double, first index and end index.  The code does this for x and y in
    turn. *)
Definition window (o : Z) (r : f64) (size : Z) : res (f64 * f64 * Z * Z) :=
  let src := src_pos o r in
  let filter_size := ddiv d1 r in
  let start := dsub src (dmul filter_size half) in
  let end_ := dadd src (dmul filter_size half) in
  i_start <- to_i32 (dfloor start) ;;
  i_end <- to_i32 (dceil end_) ;;
  let i_start := if i_start <? 0 then 0 else i_start in
  let i_end := if s32 size <? i_end then s32 size else i_end in
  Ok (start, end_, i_start, i_end).

(** conversion.c:698-706: overlap of the cell [i, i+1] with the window *)
Definition overlap (i : Z) (start end_ : f64) : f64 * f64 :=
  let left := d_of_Z i in
  let right := d_of_Z (i + 1) in
  ((if dlt start left then left else start), (if dlt right end_ then right else end_)).

(** r_sum, g_sum, b_sum, total_weight *)
Notation sums := (f64 * f64 * f64 * f64)%type.

(** conversion.c:697-718: body of the loop over the window *)
Definition box_step (data : buf Z) (width : Z) (x_start x_end y_start y_end : f64) (sy sx : Z) (s : sums) : res sums :=
  let '(ol, or_) := overlap sx x_start x_end in
  let '(ot, ob) := overlap sy y_start y_end in
  if dlt ol or_ && dlt ot ob then
    let weight := dmul (dsub or_ ol) (dsub ob ot) in
    let '(r_sum, g_sum, b_sum, total_weight) := s in
    let src_idx := u32 (u32 (u32 (sy * width) + sx) * 4) in
    r <- load data src_idx ;;
    g <- load data (u32 (src_idx + 1)) ;;
    b <- load data (u32 (src_idx + 2)) ;;
    Ok (dadd r_sum (dmul (d_of_Z r) weight), dadd g_sum (dmul (d_of_Z g) weight),
        dadd b_sum (dmul (d_of_Z b) weight), dadd total_weight weight)
  else Ok s.

(** conversion.c:664-734: a pixel of the output by area averaging *)
Definition box_px (data : buf Z) (width height : Z) (resize_x resize_y : f64) (out_x out_y : Z) : res (Z * Z * Z) :=
  wx <- window out_x resize_x width ;;
  wy <- window out_y resize_y height ;;
  let '(x_start, x_end, ix_start, ix_end) := wx in
  let '(y_start, y_end, iy_start, iy_end) := wy in
  s <- for_ iy_start iy_end (fun sy s =>
         for_ ix_start ix_end (fun sx s => box_step data width x_start x_end y_start y_end sy sx s) s)
       (d0, d0, d0, d0) ;;
  let '(r_sum, g_sum, b_sum, total_weight) := s in
  if dlt d0 total_weight then
    r <- to_u8 (dadd (ddiv r_sum total_weight) half) ;;
    g <- to_u8 (dadd (ddiv g_sum total_weight) half) ;;
    b <- to_u8 (dadd (ddiv b_sum total_weight) half) ;;
    Ok (r, g, b)
  else Ok (0, 0, 0).

(** conversion.c:739-772: the two source indices along one axis and the
    fraction between them *)
Definition lin_axis (o : Z) (r : f64) (size : Z) : res (Z * Z * f64) :=
  let src := src_pos o r in
  i0 <- to_i32 (dfloor src) ;;
  i1 <- ck32 (i0 + 1) ;;
  let i0 := if i0 <? 0 then 0 else i0 in
  let i1 := if s32 size <=? i1 then s32 (u32 (size - 1)) else i1 in
  let d := dsub src (d_of_Z i0) in
  let d := if dlt d d0 then d0 else d in
  let d := if dlt d1 d then d1 else d in
  Ok (i0, i1, d).

(** conversion.c:775-778: index of channel [c] of source pixel ([x], [y]) *)
Definition src_at (width x y c : Z) : Z := u32 (u32 (u32 (u32 (y * width) + x) * 4) + c).

(** conversion.c:780-785 *)
Definition interpolate (p00 p01 p10 p11 : Z) (dx dy : f64) : f64 :=
  dadd (dadd (dadd
    (dmul (dmul (d_of_Z p00) (dsub d1 dx)) (dsub d1 dy))
    (dmul (dmul (d_of_Z p01) dx) (dsub d1 dy)))
    (dmul (dmul (d_of_Z p10) (dsub d1 dx)) dy))
    (dmul (dmul (d_of_Z p11) dx) dy).

(** conversion.c:774-786: one channel *)
Definition lin_chan (data : buf Z) (width x0 x1 y0 y1 : Z) (dx dy : f64) (c : Z) : res Z :=
  p00 <- load data (src_at width x0 y0 c) ;;
  p01 <- load data (src_at width x1 y0 c) ;;
  p10 <- load data (src_at width x0 y1 c) ;;
  p11 <- load data (src_at width x1 y1 c) ;;
  to_u8 (dadd (interpolate p00 p01 p10 p11 dx dy) half).

(** conversion.c:739-787: a pixel of the output by bilinear interpolation *)
Definition lin_px (data : buf Z) (width height : Z) (resize_x resize_y : f64) (out_x out_y : Z) : res (Z * Z * Z) :=
  ax <- lin_axis out_x resize_x width ;;
  ay <- lin_axis out_y resize_y height ;;
  let '(x0, x1, dx) := ax in
  let '(y0, y1, dy) := ay in
  r <- lin_chan data width x0 x1 y0 y1 dx dy 0 ;;
  g <- lin_chan data width x0 x1 y0 y1 dx dy 1 ;;
  b <- lin_chan data width x0 x1 y0 y1 dx dy 2 ;;
  Ok (r, g, b).

(** conversion.c:663, 736 *)
Definition resize_px (data : buf Z) (width height : Z) (resize_x resize_y : f64) (out_x out_y : Z) : res (Z * Z * Z) :=
  if dlt resize_x d1 || dlt resize_y d1
  then box_px data width height resize_x resize_y out_x out_y
  else lin_px data width height resize_x resize_y out_x out_y.

(** conversion.c:721-734, 787-790: write the pixel, opaque *)
Definition put_px (dst : buf Z) (out_width out_x out_y : Z) (p : Z * Z * Z) : res (buf Z) :=
  let '(r, g, b) := p in
  let i := u32 (u32 (u32 (out_y * out_width) + out_x) * 4) in
  dst <- store dst i r ;;
  dst <- store dst (u32 (i + 1)) g ;;
  dst <- store dst (u32 (i + 2)) b ;;
  store dst (u32 (i + 3)) 255.

(** conversion.c:661-792 *)
Definition resize_loop (data : buf Z) (width height : Z) (resize_x resize_y : f64) (out_width out_height : Z)
  (dst : buf Z) : res (buf Z) :=
  for_ 0 out_height (fun out_y dst =>
    for_ 0 out_width (fun out_x dst =>
      p <- resize_px data width height resize_x resize_y out_x out_y ;;
      put_px dst out_width out_x out_y p) dst) dst.

(** conversion.c:608-794 [fcv_resize].  [out_width], [out_height] are the values
    the two output parameters point to; the new values are returned with the
    result.  NULL output parameters are not modelled. *)
Definition resize (width height : Z) (resize_x resize_y : f64) (out_width out_height : Z) (data : ptr)
  : M (ptr * Z * Z) :=
  if is_null data then ret (Null, out_width, out_height) else
  if (width =? 0) || (height =? 0) then ret (Null, out_width, out_height) else
  if dle resize_x d0 || dle resize_y d0 || negb (dfinite resize_x) || negb (dfinite resize_y)
  then ret (Null, out_width, out_height) else
  let new_width_d := dmul (d_of_Z width) resize_x in
  let new_height_d := dmul (d_of_Z height) resize_y in
  if dlt (d_of_Z 4294967295) new_width_d || dlt (d_of_Z 4294967295) new_height_d
  then ret (Null, out_width, out_height) else
  out_width <-- lift (to_u32 new_width_d) ;;
  out_height <-- lift (to_u32 new_height_d) ;;
  if (out_width =? 0) || (out_height =? 0) then ret (Null, out_width, out_height) else
  if SIZE_MAX / out_height <? out_width then ret (Null, out_width, out_height) else
  let out_img_pixels := out_width * out_height in
  if SIZE_MAX / 4 <? out_img_pixels then ret (Null, out_width, out_height) else
  resized_data <-- alloc (OBytes (bnew (out_img_pixels * 4))) ;;
  if is_null resized_data then ret (Null, out_width, out_height) else
  src <-- get_bytes data ;;
  dst <-- get_bytes resized_data ;;
  dst <-- lift (resize_loop src width height resize_x resize_y out_width out_height dst) ;;
  _ <-- put_obj resized_data (OBytes dst) ;;
  ret (resized_data, out_width, out_height).

(** cli.c:862-863, 888-902: the operation "resize WxH" with absolute sizes
    [target_x], [target_y] (results of atof); yields the result and the new width
    and height. *)
Definition resize_to (width height : Z) (target_x target_y : f64) (data : ptr) : M (ptr * Z * Z) :=
  let resize_x := ddiv target_x (d_of_Z width) in
  let resize_y := ddiv target_y (d_of_Z height) in
  r <-- resize (u32 width) (u32 height) resize_x resize_y 0 0 data ;;
  let '(result, out_width, out_height) := r in
  if is_null result then ret (Null, width, height)
  else ret (result, s32 out_width, s32 out_height).
