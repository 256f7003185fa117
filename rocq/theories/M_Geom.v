(** * Model of src/flip.c, src/rotate.c and src/crop.c *)
From Verif Require Import Base F Heap.

(** The four assignments [dst[di+k] = src[si+k]], k = 0..3, that form the body
    of every orientation loop: flip.c:46-49, 91-94, 131-134, 172-175,
    rotate.c:41-44, 82-85, 122-125.  Indices are size_t. *)
Definition copy4 (dst : buf Z) (di : Z) (src : buf Z) (si : Z) : res (buf Z) :=
  v <- load src si ;;
  dst <- store dst di v ;;
  v <- load src (u64 (si + 1)) ;;
  dst <- store dst (u64 (di + 1)) v ;;
  v <- load src (u64 (si + 2)) ;;
  dst <- store dst (u64 (di + 2)) v ;;
  v <- load src (u64 (si + 3)) ;;
  store dst (u64 (di + 3)) v.

(** [((size_t)y * width + x) * 4] *)
Definition idx4 (y width x : Z) : Z := u64 (u64 (u64 (y * width) + x) * 4).

(** The double loop shared by the orientation functions, with source index
    [idx4 y width x] and destination index [dsti x y]. *)
Definition orient_loop (width height : Z) (dsti : Z -> Z -> Z) (src dst : buf Z) : res (buf Z) :=
  for_ 0 height (fun y dst =>
    for_ 0 width (fun x dst =>
      copy4 dst (dsti x y) src (idx4 y width x)) dst) dst.

(** Argument and overflow checks, allocation and loop shared by all eight
    functions: flip.c:21-41, 66-86, 106-126, 146-166, rotate.c:16-36, 56-76,
    97-117 (the code is textually identical in each function). *)
Definition orient_shell (width height : Z) (data : ptr)
    (loop : buf Z -> buf Z -> res (buf Z)) : M ptr :=
  if is_null data || (width =? 0) || (height =? 0) then ret Null else
  if SIZE_MAX / height <? width then ret Null else
  let num_pixels := u64 (width * height) in
  if SIZE_MAX / 4 <? num_pixels then ret Null else
  let img_length_byte := u64 (num_pixels * 4) in
  p <-- malloc_bytes img_length_byte ;;
  if is_null p then ret Null else
  src <-- get_bytes data ;;
  dst <-- get_bytes p ;;
  dst' <-- lift (loop src dst) ;;
  _ <-- put_bytes p dst' ;;
  ret p.

(** flip.c:19-54 [fcv_flip_x] *)
Definition flip_x (width height : Z) (data : ptr) : M ptr :=
  orient_shell width height data
    (orient_loop width height (fun x y => idx4 y width (u32 (width - 1 - x)))).

(** flip.c:64-99 [fcv_flip_y] *)
Definition flip_y (width height : Z) (data : ptr) : M ptr :=
  orient_shell width height data
    (orient_loop width height (fun x y => idx4 (u32 (height - 1 - y)) width x)).

(** flip.c:104-139 [fcv_transpose] *)
Definition transpose (width height : Z) (data : ptr) : M ptr :=
  orient_shell width height data
    (orient_loop width height (fun x y => idx4 x height y)).

(** flip.c:144-180 [fcv_transverse] *)
Definition transverse (width height : Z) (data : ptr) : M ptr :=
  orient_shell width height data
    (orient_loop width height
       (fun x y => idx4 (u32 (width - 1 - x)) height (u32 (height - 1 - y)))).

(** rotate.c:14-49 [fcv_rotate_90_cw] *)
Definition rotate_90_cw (width height : Z) (data : ptr) : M ptr :=
  orient_shell width height data
    (orient_loop width height (fun x y => idx4 x height (u32 (height - 1 - y)))).

(** rotate.c:54-90 [fcv_rotate_180] *)
Definition rotate_180 (width height : Z) (data : ptr) : M ptr :=
  orient_shell width height data
    (orient_loop width height
       (fun x y => idx4 (u32 (height - 1 - y)) width (u32 (width - 1 - x)))).

(** rotate.c:95-130 [fcv_rotate_270_cw] *)
Definition rotate_270_cw (width height : Z) (data : ptr) : M ptr :=
  orient_shell width height data
    (orient_loop width height (fun x y => idx4 (u32 (width - 1 - x)) height y)).

(** crop.c:68-74: the row loop of [fcv_crop]. *)
Definition crop_loop (width channels x y new_width new_height : Z) (src dst : buf Z)
  : res (buf Z) :=
  let row_bytes := u64 (new_width * channels) in
  for_ 0 new_height (fun i dst =>
    let src_index := u64 (u64 (u64 (u32 (y + i) * width) + x) * channels) in
    let dst_index := u64 (i * row_bytes) in
    bcopy dst dst_index src src_index row_bytes) dst.

(** crop.c:30-82 [fcv_crop]; the messages on stderr are not modelled. *)
Definition crop (width height channels : Z) (data : ptr) (x y new_width new_height : Z) : M ptr :=
  if is_null data then ret Null else
  if (width =? 0) || (height =? 0) || (channels =? 0) || (new_width =? 0) || (new_height =? 0)
  then ret Null else
  if (u32 (4294967295 - new_width) <? x) || (u32 (4294967295 - new_height) <? y) then ret Null else
  if (width <? u32 (x + new_width)) || (height <? u32 (y + new_height)) then ret Null else
  if SIZE_MAX / new_height <? new_width then ret Null else
  let num_pixels := u64 (new_width * new_height) in
  if SIZE_MAX / channels <? num_pixels then ret Null else
  let alloc_size := u64 (num_pixels * channels) in
  p <-- malloc_bytes alloc_size ;;
  if is_null p then ret Null else
  src <-- get_bytes data ;;
  dst <-- get_bytes p ;;
  dst' <-- lift (crop_loop width channels x y new_width new_height src dst) ;;
  _ <-- put_bytes p dst' ;;
  ret p.
