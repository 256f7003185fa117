(** * Model of the colour conversions:
    src/rgba_to_grayscale.c, src/single_to_multichannel.c, the grayscale and
    threshold functions of src/conversion.c, src/parse_hex_color.c and
    src/convert_to_binary.c *)
From Verif Require Import Base F Heap.

(** include/rgba_to_grayscale.h: R_WEIGHT, G_WEIGHT, B_WEIGHT; the expression
    [(uint8_t)((r * R_WEIGHT + g * G_WEIGHT + b * B_WEIGHT) >> 8)] of
    rgba_to_grayscale.c:54, conversion.c:64, 129, 170.  The int expression is at
    most 255*256, so no overflow check is needed. *)
Definition R_WEIGHT : Z := 76.
Definition G_WEIGHT : Z := 150.
Definition B_WEIGHT : Z := 30.
Definition gray_of (r g b : Z) : Z :=
  u8 (Z.shiftr (r * R_WEIGHT + g * G_WEIGHT + b * B_WEIGHT) 8).

(** rgba_to_grayscale.c:47-57 *)
Definition rgba_to_grayscale_loop (img_length_px : Z) (src dst : buf Z) : res (buf Z) :=
  for_ 0 img_length_px (fun i dst =>
    let rgba_index := u64 (i * 4) in
    r <- load src rgba_index ;;
    g <- load src (u64 (rgba_index + 1)) ;;
    b <- load src (u64 (rgba_index + 2)) ;;
    store dst i (gray_of r g b)) dst.

(** rgba_to_grayscale.c:25-60 [fcv_rgba_to_grayscale] *)
Definition rgba_to_grayscale (width height : Z) (data : ptr) : M ptr :=
  if is_null data || (width =? 0) || (height =? 0) then ret Null else
  if SIZE_MAX / height <? width then ret Null else
  let img_length_px := u64 (width * height) in
  p <-- malloc_bytes img_length_px ;;
  if is_null p then ret Null else
  src <-- get_bytes data ;;
  dst <-- get_bytes p ;;
  dst' <-- lift (rgba_to_grayscale_loop img_length_px src dst) ;;
  _ <-- put_bytes p dst' ;;
  ret p.

(** single_to_multichannel.c:48-54 *)
Definition single_to_multichannel_loop (img_length_px : Z) (src dst : buf Z) : res (buf Z) :=
  for_ 0 img_length_px (fun i dst =>
    let rgba_index := u64 (i * 4) in
    v <- load src i ;;
    dst <- store dst rgba_index v ;;
    dst <- store dst (u64 (rgba_index + 1)) v ;;
    dst <- store dst (u64 (rgba_index + 2)) v ;;
    store dst (u64 (rgba_index + 3)) 255) dst.

(** single_to_multichannel.c:24-57 [fcv_single_to_multichannel] *)
Definition single_to_multichannel (width height : Z) (data : ptr) : M ptr :=
  if is_null data || (width =? 0) || (height =? 0) then ret Null else
  if SIZE_MAX / height <? width then ret Null else
  let img_length_px := u64 (width * height) in
  if SIZE_MAX / 4 <? img_length_px then ret Null else
  p <-- malloc_bytes (u64 (img_length_px * 4)) ;;
  if is_null p then ret Null else
  src <-- get_bytes data ;;
  dst <-- get_bytes p ;;
  dst' <-- lift (single_to_multichannel_loop img_length_px src dst) ;;
  _ <-- put_bytes p dst' ;;
  ret p.

(** The writes [d[k]=d[k+1]=d[k+2]=gray; d[k+3]=255] with uint32_t index [k]:
    conversion.c:66-69, 186-189. *)
Definition put_gray32 (dst : buf Z) (k gray : Z) : res (buf Z) :=
  dst <- store dst k gray ;;
  dst <- store dst (u32 (k + 1)) gray ;;
  dst <- store dst (u32 (k + 2)) gray ;;
  store dst (u32 (k + 3)) 255.

(** The reads of r, g, b with uint32_t index [k] and the luma:
    conversion.c:58-64, 123-129, 164-170. *)
Definition get_gray32 (src : buf Z) (k : Z) : res Z :=
  r <- load src k ;;
  g <- load src (u32 (k + 1)) ;;
  b <- load src (u32 (k + 2)) ;;
  Ok (gray_of r g b).

(** conversion.c:57-70.  Both the bound [width * height] and the index are
    uint32_t. *)
Definition grayscale_loop (width height : Z) (src dst : buf Z) : res (buf Z) :=
  for_ 0 (u32 (width * height)) (fun i dst =>
    let rgba_index := u32 (i * 4) in
    gray <- get_gray32 src rgba_index ;;
    put_gray32 dst rgba_index gray) dst.

(** conversion.c:34-73 [fcv_grayscale] *)
Definition grayscale (width height : Z) (data : ptr) : M ptr :=
  if is_null data || (width =? 0) || (height =? 0) then ret Null else
  if SIZE_MAX / height <? width then ret Null else
  let num_pixels := u64 (width * height) in
  if SIZE_MAX / 4 <? num_pixels then ret Null else
  let img_length_byte := u64 (num_pixels * 4) in
  p <-- malloc_bytes img_length_byte ;;
  if is_null p then ret Null else
  src <-- get_bytes data ;;
  dst <-- get_bytes p ;;
  dst' <-- lift (grayscale_loop width height src dst) ;;
  _ <-- put_bytes p dst' ;;
  ret p.

(** ** grayscale_stretch *)

(** conversion.c:122-130; the counter is uint32_t, the bound size_t. *)
Definition stretch_gray_loop (img_length_px : Z) (src gv : buf Z) : res (buf Z) :=
  for_u32 0 img_length_px (fun i gv =>
    gray <- get_gray32 src (u32 (i * 4)) ;;
    store gv i gray) gv.

(** conversion.c:133-136 and 274-277: [uint32_t histogram[256]]. *)
Definition histogram_loop (img_length_px : Z) (gv : buf Z) : res (buf Z) :=
  for_u32 0 img_length_px (fun i hist =>
    v <- load gv i ;;
    n <- load hist v ;;
    store hist v (u32 (n + 1))) (bconst 256 0).

(** conversion.c:138-146: first index whose cumulative count exceeds [k]; the
    initial value 0 is kept if there is none. *)
Definition find_min (hist : buf Z) (k : Z) : res Z :=
  r <- for_brk 0 256 (fun i cum =>
    n <- load hist i ;;
    let cum := u32 (cum + n) in
    if k <? cum then Ok (inr i) else Ok (inl cum)) 0 ;;
  match r with inr i => Ok (u8 i) | inl _ => Ok 0 end.

(** conversion.c:148-156: same from 255 downwards (loop index [i = 255 - j]). *)
Definition find_max (hist : buf Z) (k : Z) : res Z :=
  r <- for_brk 0 256 (fun j cum =>
    n <- load hist (255 - j) ;;
    let cum := u32 (cum + n) in
    if k <? cum then Ok (inr (255 - j)) else Ok (inl cum)) 0 ;;
  match r with inr i => Ok (u8 i) | inl _ => Ok 255 end.

(** conversion.c:172-184 *)
Definition stretch_px (min_val max_val range gray : Z) : res Z :=
  if range =? 0 then Ok gray
  else if gray <? min_val then Ok 0
  else if max_val <? gray then Ok 255
  else Ok (u8 (Z.quot ((gray - min_val) * 255) range)).

(** conversion.c:163-190; the counter is size_t, the index uint32_t. *)
Definition stretch_out_loop (img_length_px min_val max_val range : Z) (src dst : buf Z)
  : res (buf Z) :=
  for_ 0 img_length_px (fun i dst =>
    let rgba_index := u32 (i * 4) in
    gray <- get_gray32 src rgba_index ;;
    gray <- stretch_px min_val max_val range gray ;;
    put_gray32 dst rgba_index gray) dst.

(** conversion.c:88-193 [fcv_grayscale_stretch] *)
Definition grayscale_stretch (width height : Z) (data : ptr) : M ptr :=
  if is_null data || (width =? 0) || (height =? 0) then ret Null else
  if SIZE_MAX / height <? width then ret Null else
  let img_length_px := u64 (width * height) in
  if SIZE_MAX / 4 <? img_length_px then ret Null else
  let img_length_byte := u64 (img_length_px * 4) in
  p <-- malloc_bytes img_length_byte ;;
  if is_null p then ret Null else
  let num_pixels_to_ignore := u32 (Z.shiftr img_length_px 6) in
  g <-- malloc_bytes img_length_px ;;
  if is_null g then (_ <-- free p ;; ret Null) else
  src <-- get_bytes data ;;
  gv <-- get_bytes g ;;
  gv' <-- lift (stretch_gray_loop img_length_px src gv) ;;
  _ <-- put_bytes g gv' ;;
  hist <-- lift (histogram_loop img_length_px gv') ;;
  min_val <-- lift (find_min hist num_pixels_to_ignore) ;;
  max_val <-- lift (find_max hist num_pixels_to_ignore) ;;
  _ <-- free g ;;
  let range := u8 (max_val - min_val) in
  dst <-- get_bytes p ;;
  dst' <-- lift (stretch_out_loop img_length_px min_val max_val range src dst) ;;
  _ <-- put_bytes p dst' ;;
  ret p.

(** ** Thresholds (in place) *)

(** conversion.c:203-211 [fcv_apply_global_threshold] *)
Definition apply_global_threshold (img_length_px threshold : Z) (data : buf Z) : res (buf Z) :=
  for_ 0 img_length_px (fun i data =>
    v <- load data i ;;
    store data i (if threshold <? v then 255 else 0)) data.

(** conversion.c:224-242 [apply_double_threshold]; the parameters are uint8_t.
    The quotient is computed in int and converted to uint8_t. *)
Definition double_threshold_px (lower upper v : Z) : res Z :=
  if v <? lower then Ok 0
  else if upper <? v then Ok 255
  else if upper - lower =? 0 then UB DivByZero
  else Ok (u8 (Z.quot ((v - lower) * 255) (upper - lower))).
Definition apply_double_threshold (img_length_px lower upper : Z) (data : buf Z) : res (buf Z) :=
  for_ 0 img_length_px (fun i data =>
    v <- load data i ;;
    v' <- double_threshold_px lower upper v ;;
    store data i v') data.

(** ** Hex colours *)

(** A C string: its characters without the terminating NUL. *)
Definition cstr := list Z.
(** [s[i]]; reading the terminator gives 0, reading beyond it is undefined. *)
Definition char_at (s : cstr) (i : Z) : res Z :=
  if (0 <=? i) && (i <=? Z.of_nat (length s)) then Ok (nth (Z.to_nat i) s 0) else UB OutOfBounds.
Definition strlen (s : cstr) : Z := Z.of_nat (length s).

(** parse_hex_color.c:41-43: the validity test of one character. *)
Definition is_hex_digit (c : Z) : bool :=
  ((48 <=? c) && (c <=? 57)) || ((65 <=? c) && (c <=? 70)) || ((97 <=? c) && (c <=? 102)).
(** Value of a hex digit, as read by sscanf "%x". *)
Definition hex_val (c : Z) : Z :=
  if c <=? 57 then c - 48 else if c <=? 70 then c - 55 else c - 87.
(** [sscanf(hex, "%x", &v)] on a string of hex digits (the only case in which
    parse_hex_color.c:54 is reached). *)
Definition sscanf_x (s : cstr) : Z := fold_left (fun acc c => u32 (acc * 16 + hex_val c)) s 0.

(** parse_hex_color.c:40-50: is some of the six characters not a hex digit? *)
Definition has_bad_digit (hex : cstr) : res bool :=
  r <- for_brk 0 6 (fun i _ =>
    c <- char_at hex i ;;
    if negb (is_hex_digit c) then Ok (inr tt) else Ok (inl tt)) tt ;;
  match r with inr _ => Ok true | inl _ => Ok false end.

(** parse_hex_color.c:17-59 [fcv_parse_hex_color]; the three output pointers
    are the result. *)
Definition parse_hex_color (hex_color : cstr) : res (Z * Z * Z) :=
  c0 <- char_at hex_color 0 ;;
  let hex := if c0 =? 35 then tl hex_color else hex_color in
  if negb (strlen hex =? 6) then Ok (255, 255, 255) else
  bad <- has_bad_digit hex ;;
  if (bad : bool) then Ok (255, 255, 255) else
  let rgb := sscanf_x hex in
  Ok (Z.land (Z.shiftr rgb 16) 255, Z.land (Z.shiftr rgb 8) 255, Z.land rgb 255).

(** ** convert_to_binary *)

(** convert_to_binary.c:60-79 *)
Definition convert_to_binary_loop (num_pixels : Z) (fg bg : Z * Z * Z) (src dst : buf Z) : res (buf Z) :=
  let '(r_fg, g_fg, b_fg) := fg in
  let '(r_bg, g_bg, b_bg) := bg in
  for_ 0 num_pixels (fun i dst =>
    let rgba_index := u64 (i * 4) in
    r <- load src rgba_index ;;
    g <- load src (u64 (rgba_index + 1)) ;;
    b <- load src (u64 (rgba_index + 2)) ;;
    if (r =? r_fg) && (g =? g_fg) && (b =? b_fg) then store dst i 255
    else if (r =? r_bg) && (g =? g_bg) && (b =? b_bg) then store dst i 0
    else store dst i 0) dst.

(** convert_to_binary.c:29-82 [fcv_convert_to_binary]; width and height are
    int32_t.  Strings are passed by value, NULL as [None]. *)
Definition convert_to_binary (image_data : ptr) (width height : Z)
    (foreground_hex background_hex : option cstr) : M ptr :=
  match foreground_hex, background_hex with
  | Some fg_hex, Some bg_hex =>
    if is_null image_data then ret Null else
    if (width <=? 0) || (height <=? 0) then ret Null else
    if SIZE_MAX / height <? width then ret Null else
    let num_pixels := u64 (width * height) in
    p <-- malloc_bytes num_pixels ;;
    if is_null p then ret Null else
    src <-- get_bytes image_data ;;
    dst <-- get_bytes p ;;
    fg <-- lift (parse_hex_color fg_hex) ;;
    bg <-- lift (parse_hex_color bg_hex) ;;
    dst' <-- lift (convert_to_binary_loop num_pixels fg bg src dst) ;;
    _ <-- put_bytes p dst' ;;
    ret p
  | _, _ => ret Null
  end.
