(** * Model of src/trim.c *)
From Verif Require Import Base F Heap M_Geom.

(** trim.c:17-25 [pixels_match]; the pixels are given by their offsets in [data]. *)
Definition pixels_match (data : buf Z) (channels p1 p2 : Z) : res bool :=
  r <- for_brk 0 channels (fun c _ =>
    a <- load data (p1 + c) ;;
    b <- load data (p2 + c) ;;
    if negb (a =? b) then Ok (inr tt) else Ok (inl tt)) tt ;;
  match r with inr _ => Ok false | inl _ => Ok true end.

(** trim.c:36-52 [pixels_match_threshold] *)
Definition pixels_match_threshold (data : buf Z) (channels tolerance p1 p2 : Z) : res bool :=
  r <- for_brk 0 channels (fun c _ =>
    a <- load data (p1 + c) ;;
    b <- load data (p2 + c) ;;
    let diff := a - b in
    let diff := if diff <? 0 then - diff else diff in
    if tolerance <? u8 diff then Ok (inr tt) else Ok (inl tt)) tt ;;
  match r with inr _ => Ok false | inl _ => Ok true end.

(** [(y * w + x) * channels] in uint32_t arithmetic. *)
Definition tidx (w channels y x : Z) : Z := u32 (u32 (u32 (y * w) + x) * channels).

(** The inner loops (trim.c:91-97, 114-120, 136-142, 159-165 and the same in
    [fcv_trim_threshold]): do the pixels at [idx lo .. idx (hi-1)] match [ref]? *)
Definition line_matches (mt : Z -> Z -> res bool) (idx : Z -> Z) (ref lo hi : Z) : res bool :=
  r <- for_brk lo hi (fun i _ =>
    m <- mt (idx i) ref ;;
    if negb m then Ok (inr tt) else Ok (inl tt)) tt ;;
  match r with inr _ => Ok false | inl _ => Ok true end.

(** trim.c:86-105 and 247-266 (left), with top = 0 and bottom = h *)
Definition trim_left (mt : Z -> Z -> res bool) (w channels top bottom right : Z) : res Z :=
  while_ (Z.to_nat w + 1) (fun left =>
    if left <? right then
      can <- line_matches mt (fun y => tidx w channels y left) (tidx w channels top left) top bottom ;;
      if (can : bool) && (1 <? u32 (right - left)) then Ok (inl (u32 (left + 1))) else Ok (inr left)
    else Ok (inr left)) 0.

(** trim.c:108-129 and 269-289 (right) *)
Definition trim_right (mt : Z -> Z -> res bool) (w channels top bottom left : Z) : res Z :=
  while_ (Z.to_nat w + 1) (fun right =>
    if left <? right then
      can <- line_matches mt (fun y => tidx w channels y (u32 (right - 1)))
               (tidx w channels top (u32 (right - 1))) top bottom ;;
      if (can : bool) && (1 <? u32 (right - left)) then Ok (inl (u32 (right - 1))) else Ok (inr right)
    else Ok (inr right)) w.

(** trim.c:131-151 and 292-311 (top) *)
Definition trim_top (mt : Z -> Z -> res bool) (w h channels left right bottom : Z) : res Z :=
  while_ (Z.to_nat h + 1) (fun top =>
    if (top <? bottom) && (1 <? u32 (bottom - top)) then
      can <- line_matches mt (fun x => tidx w channels top x) (tidx w channels top left) left right ;;
      if (can : bool) then Ok (inl (u32 (top + 1))) else Ok (inr top)
    else Ok (inr top)) 0.

(** trim.c:154-174 and 314-333 (bottom) *)
Definition trim_bottom (mt : Z -> Z -> res bool) (w h channels left right top : Z) : res Z :=
  while_ (Z.to_nat h + 1) (fun bottom =>
    if (top <? bottom) && (1 <? u32 (bottom - top)) then
      can <- line_matches mt (fun x => tidx w channels (u32 (bottom - 1)) x)
               (tidx w channels (u32 (bottom - 1)) left) left right ;;
      if (can : bool) then Ok (inl (u32 (bottom - 1))) else Ok (inr bottom)
    else Ok (inr bottom)) h.

(** The four loops: result (left, right, top, bottom). *)
Definition trim_bounds (mt : Z -> Z -> res bool) (w h channels : Z) : res (Z * Z * Z * Z) :=
  left <- trim_left mt w channels 0 h w ;;
  right <- trim_right mt w channels 0 h left ;;
  top <- trim_top mt w h channels left right h ;;
  bottom <- trim_bottom mt w h channels left right top ;;
  Ok (left, right, top, bottom).

(** trim.c:73-202 and 235-360: what the two functions share, given the pixel
    comparison.  Result: data pointer, *width, *height after the call.  The
    pointers width and height are assumed not to be NULL. *)
Definition trim_core (mt : buf Z -> Z -> Z -> res bool) (width height channels : Z) (data : ptr)
  : M (ptr * Z * Z) :=
  let w := u32 width in
  let h := u32 height in
  if (SIZE_MAX / h <? w) || (SIZE_MAX / channels <? u64 (w * h)) then ret (Null, width, height) else
  src <-- get_bytes data ;;
  box <-- lift (trim_bounds (mt src) w h channels) ;;
  let '(lft, rgt, top, bottom) := box in
  let new_width := u32 (rgt - lft) in
  let new_height := u32 (bottom - top) in
  if (lft =? 0) && (top =? 0) && (rgt =? w) && (bottom =? h) then
    let alloc_size := u64 (u64 (w * h) * channels) in
    p <-- malloc_bytes alloc_size ;;
    if is_null p then ret (p, width, height) else
    dst <-- get_bytes p ;;
    dst' <-- lift (bcopy dst 0 src 0 alloc_size) ;;
    _ <-- put_bytes p dst' ;;
    ret (p, width, height)
  else
    p <-- crop w h channels data lft top new_width new_height ;;
    ret (p, s32 new_width, s32 new_height).

(** trim.c:63-202 [fcv_trim] *)
Definition trim (width height channels : Z) (data : ptr) : M (ptr * Z * Z) :=
  if is_null data || (width <=? 0) || (height <=? 0) || (channels =? 0)
  then ret (Null, width, height) else
  trim_core (fun src => pixels_match src channels) width height channels data.

(** trim.c:229-241: clamping of the percentage and the tolerance *)
Definition trim_tolerance (pct : f64) : res Z :=
  let pct := if dlt pct d0 then d0 else pct in
  let pct := if dlt (d_of_Z 100) pct then d_of_Z 100 else pct in
  to_u8 (ddiv (dmul pct (d_of_Z 255)) (d_of_Z 100)).

(** trim.c:217-360 [fcv_trim_threshold] *)
Definition trim_threshold (width height channels : Z) (data : ptr) (threshold_percent : f64)
  : M (ptr * Z * Z) :=
  if is_null data || (width <=? 0) || (height <=? 0) || (channels =? 0)
  then ret (Null, width, height) else
  if negb (dfinite threshold_percent) then ret (Null, width, height) else
  tolerance <-- lift (trim_tolerance threshold_percent) ;;
  if tolerance =? 0 then trim width height channels data else
  trim_core (fun src => pixels_match_threshold src channels tolerance) width height channels data.
