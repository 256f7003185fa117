(** * Model of src/binary_closing_disk.c *)
From Verif Require Import Base F Heap.

(** binary_closing_disk.c:52-53, 109-110: the test
    [dx * dx + dy * dy <= r_eff * r_eff] with [double r_eff = radius + 0.5] *)
Definition in_disk (radius dx dy : Z) : res bool :=
  xx <- ck32 (dx * dx) ;;
  yy <- ck32 (dy * dy) ;;
  d <- ck32 (xx + yy) ;;
  let r_eff := dadd (d_of_Z radius) (lit 1 2) in
  Ok (dle (d_of_Z d) (dmul r_eff r_eff)).

(** binary_closing_disk.c:37-67: the loops of [fcv_binary_dilation_disk] *)
Definition dilate_loop (width height radius num_pixels : Z) (src dst : buf Z) : res (buf Z) :=
  dst <- bfill dst num_pixels 0 ;;
  for_ 0 height (fun y b => for_ 0 width (fun x b =>
    t <- ck32 (y * width) ;;
    idx <- ck32 (t + x) ;;
    v <- load src idx ;;
    if v =? 255 then
      for_ (- radius) (radius + 1) (fun dy b => for_ (- radius) (radius + 1) (fun dx b =>
        d <- in_disk radius dx dy ;;
        if (d : bool) then
          ny <- ck32 (y + dy) ;;
          nx <- ck32 (x + dx) ;;
          if (0 <=? ny) && (ny <? height) && (0 <=? nx) && (nx <? width) then
            t <- ck32 (ny * width) ;;
            nidx <- ck32 (t + nx) ;;
            store b nidx 255
          else Ok b
        else Ok b) b) b
    else Ok b) b) dst.

(** binary_closing_disk.c:16-70 [fcv_binary_dilation_disk] *)
Definition binary_dilation_disk (image_data : ptr) (width height radius : Z) : M ptr :=
  if is_null image_data || (width <=? 0) || (height <=? 0) || (radius <? 0) then ret Null else
  if SIZE_MAX / height <? width then ret Null else
  let num_pixels := u64 (width * height) in
  p <-- malloc_bytes num_pixels ;;
  if is_null p then ret Null else
  src <-- get_bytes image_data ;;
  dst <-- get_bytes p ;;
  dst' <-- lift (dilate_loop width height radius num_pixels src dst) ;;
  _ <-- put_bytes p dst' ;;
  ret p.

(** binary_closing_disk.c:114-132: the neighbour's value *)
Definition neighbor (src : buf Z) (width height ny nx : Z) (replicate_border : bool) : res Z :=
  if (ny <? 0) || (height <=? ny) || (nx <? 0) || (width <=? nx) then
    if replicate_border then
      let clamped_y := if ny <? 0 then 0 else if height <=? ny then height - 1 else ny in
      let clamped_x := if nx <? 0 then 0 else if width <=? nx then width - 1 else nx in
      t <- ck32 (clamped_y * width) ;;
      i <- ck32 (t + clamped_x) ;;
      load src i
    else Ok 0
  else
    t <- ck32 (ny * width) ;;
    i <- ck32 (t + nx) ;;
    load src i.

(** binary_closing_disk.c:102-139: [can_erode] at (x, y).  The loops end as soon
    as it is false. *)
Definition can_erode (width height radius : Z) (replicate_border : bool) (src : buf Z) (x y : Z) : res bool :=
  r <- for_brk (- radius) (radius + 1) (fun dy _ =>
    r <- for_brk (- radius) (radius + 1) (fun dx _ =>
      d <- in_disk radius dx dy ;;
      if (d : bool) then
        ny <- ck32 (y + dy) ;;
        nx <- ck32 (x + dx) ;;
        v <- neighbor src width height ny nx replicate_border ;;
        if negb (v =? 255) then Ok (inr tt) else Ok (inl tt)
      else Ok (inl tt)) tt ;;
    match r with inr _ => Ok (inr tt) | inl _ => Ok (inl tt) end) tt ;;
  match r with inr _ => Ok false | inl _ => Ok true end.

(** binary_closing_disk.c:94-145 *)
Definition erode_loop (width height radius : Z) (replicate_border : bool) (num_pixels : Z)
    (src dst : buf Z) : res (buf Z) :=
  dst <- bfill dst num_pixels 0 ;;
  for_ 0 height (fun y b => for_ 0 width (fun x b =>
    t <- ck32 (y * width) ;;
    idx <- ck32 (t + x) ;;
    c <- can_erode width height radius replicate_border src x y ;;
    if (c : bool) then store b idx 255 else Ok b) b) dst.

(** binary_closing_disk.c:72-148 [binary_erosion_disk_internal] *)
Definition binary_erosion_disk_internal (image_data : ptr) (width height radius : Z)
    (replicate_border : bool) : M ptr :=
  if is_null image_data || (width <=? 0) || (height <=? 0) || (radius <? 0) then ret Null else
  if SIZE_MAX / height <? width then ret Null else
  let num_pixels := u64 (width * height) in
  p <-- malloc_bytes num_pixels ;;
  if is_null p then ret Null else
  src <-- get_bytes image_data ;;
  dst <-- get_bytes p ;;
  dst' <-- lift (erode_loop width height radius replicate_border num_pixels src dst) ;;
  _ <-- put_bytes p dst' ;;
  ret p.

(** binary_closing_disk.c:150-158 [fcv_binary_erosion_disk] *)
Definition binary_erosion_disk (image_data : ptr) (width height radius : Z) : M ptr :=
  binary_erosion_disk_internal image_data width height radius false.

(** binary_closing_disk.c:160-189 [fcv_binary_closing_disk] *)
Definition binary_closing_disk (image_data : ptr) (width height radius : Z) : M ptr :=
  if is_null image_data || (width <=? 0) || (height <=? 0) || (radius <? 0) then ret Null else
  dilated <-- binary_dilation_disk image_data width height radius ;;
  if is_null dilated then ret Null else
  result <-- binary_erosion_disk_internal dilated width height radius true ;;
  _ <-- free dilated ;;
  ret result.

(** binary_closing_disk.c:191-214 [fcv_binary_opening_disk] *)
Definition binary_opening_disk (image_data : ptr) (width height radius : Z) : M ptr :=
  if is_null image_data || (width <=? 0) || (height <=? 0) || (radius <? 0) then ret Null else
  eroded <-- binary_erosion_disk image_data width height radius ;;
  if is_null eroded then ret Null else
  result <-- binary_dilation_disk eroded width height radius ;;
  _ <-- free eroded ;;
  ret result.
