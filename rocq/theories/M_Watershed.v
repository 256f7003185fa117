(** * M_Watershed: model of src/watershed_segmentation.c *)
From Verif Require Import Base F Heap.

(** watershed_segmentation.c:17-28 [Queue], with the items of its array as
    triples (x, y, label). *)
Record queue := mkq { qitems : buf (Z * Z * Z); qfront : Z; qrear : Z; qsize : Z; qcap : Z }.

(** watershed_segmentation.c:47-50: a new queue *)
Definition new_queue (capacity : Z) : queue := mkq (bnew capacity) 0 (-1) 0 (s32 capacity).

(** watershed_segmentation.c:30-52 [create_queue]: the block of the struct and
    the block of its items.  The two blocks exist in the heap, so that
    allocation failures and leaks show; their contents are the [queue] that the
    functions below pass along. *)
Definition create_queue (capacity : Z) : M (option (ptr * ptr * queue)) :=
  if (capacity =? 0) || (SIZE_MAX / 12 <? capacity) || (INT_MAX <? capacity) then ret None else
  q <-- alloc (OInts (bnew 6)) ;;
  if is_null q then ret None else
  items <-- alloc (OInts (bnew (3 * capacity))) ;;
  if is_null items then (_ <-- free q ;; ret None) else
  ret (Some (q, items, new_queue capacity)).

(** watershed_segmentation.c:54-59 [destroy_queue] *)
Definition destroy_queue (q items : ptr) : M unit :=
  _ <-- free items ;; free q.

(** watershed_segmentation.c:63-74 [enqueue]; the returned int, which no caller
    uses, is left out. *)
Definition enqueue (q : queue) (x y label : Z) : res queue :=
  if qcap q <=? qsize q then Ok q else
  r1 <- ck32 (qrear q + 1) ;;
  if qcap q =? 0 then UB DivByZero else
  let rear := Z.rem r1 (qcap q) in
  items <- store (qitems q) rear (x, y, label) ;;
  n <- ck32 (qsize q + 1) ;;
  Ok (mkq items (qfront q) rear n (qcap q)).

(** watershed_segmentation.c:76-86 [dequeue] *)
Definition dequeue (q : queue) : res (Z * Z * Z * queue) :=
  if qsize q =? 0 then Ok ((-1, -1, -1), q) else
  item <- load (qitems q) (qfront q) ;;
  f1 <- ck32 (qfront q + 1) ;;
  if qcap q =? 0 then UB DivByZero else
  Ok (item, mkq (qitems q) (Z.rem f1 (qcap q)) (qrear q) (qsize q - 1) (qcap q)).

(** watershed_segmentation.c:122-136: is every marker valid? *)
Definition check_markers (width height : Z) (mk : buf (f64 * f64)) (num_markers : Z) : res bool :=
  r <- for_brk 0 num_markers (fun m (_ : unit) =>
    p <- load mk m ;;
    if negb (dfinite (fst p)) || negb (dfinite (snd p)) then Ok (inr tt) else
    marker_x <- to_i32 (fst p) ;;
    marker_y <- to_i32 (snd p) ;;
    if (marker_x <? 0) || (s32 width <=? marker_x) || (marker_y <? 0) || (s32 height <=? marker_y)
    then Ok (inr tt) else Ok (inl tt)) tt ;;
  Ok (match r with inl _ => true | inr _ => false end).

(** watershed_segmentation.c:168-170 *)
Definition init_labels (img_length_px : Z) (labels : buf Z) : res (buf Z) :=
  for_u32 0 img_length_px (fun i labels => store labels i (-1)) labels.

(** watershed_segmentation.c:181-188 *)
Definition place_markers (width : Z) (mk : buf (f64 * f64)) (num_markers : Z) (q : queue) (labels : buf Z)
  : res (queue * buf Z) :=
  for_ 0 num_markers (fun m st =>
    let '(q, labels) := st in
    p <- load mk m ;;
    marker_x <- to_i32 (fst p) ;;
    marker_y <- to_i32 (snd p) ;;
    let idx := s32 (u32 (u32 (marker_y * width) + marker_x)) in
    let label := s32 m in
    labels <- store labels idx label ;;
    q <- enqueue q marker_x marker_y label ;;
    Ok (q, labels)) (q, labels).

(** watershed_segmentation.c:191-192 *)
Definition dxs : list Z := [-1; 1; 0; 0].
Definition dys : list Z := [0; 0; -1; 1].

(** watershed_segmentation.c:222-243: neighbor_label and multiple_labels *)
Definition find_neighbor (width height : Z) (labels : buf Z) (x y : Z) : res (Z * bool) :=
  r <- for_brk 0 4 (fun d neighbor_label =>
    let nx := s32 (u32 (x + nth (Z.to_nat d) dxs 0)) in
    let ny := s32 (u32 (y + nth (Z.to_nat d) dys 0)) in
    if (0 <=? nx) && (nx <? s32 width) && (0 <=? ny) && (ny <? s32 height) then
      let neighbor_idx := s32 (u32 (u32 (ny * width) + nx)) in
      l <- load labels neighbor_idx ;;
      if l =? -1 then Ok (inl neighbor_label) else
      if neighbor_label =? -1 then Ok (inl l) else
      if neighbor_label =? l then Ok (inl neighbor_label) else
      Ok (inr neighbor_label)
    else Ok (inl neighbor_label)) (-1) ;;
  Ok (match r with inl l => (l, false) | inr l => (l, true) end).

(** watershed_segmentation.c:205-251: one pixel of the search *)
Definition scan_pixel (width height : Z) (gray : buf Z) (create_boundaries : bool) (current_level : Z)
    (labels : buf Z) (x y : Z) (st : queue * bool) : res (queue * bool) :=
  let '(q, changed) := st in
  let idx := s32 (u32 (u32 (y * width) + x)) in
  l <- load labels idx ;;
  if negb (l =? -1) then Ok (q, changed) else
  g <- load gray idx ;;
  if current_level <? g then Ok (q, changed) else
  nb <- find_neighbor width height labels x y ;;
  let '(neighbor_label, multiple_labels) := nb in
  if negb (neighbor_label =? -1) && (negb multiple_labels || negb create_boundaries) then
    q <- enqueue q (s32 x) (s32 y) neighbor_label ;;
    Ok (q, true)
  else Ok (q, changed).

(** watershed_segmentation.c:200-253 *)
Definition scan (width height : Z) (gray : buf Z) (create_boundaries : bool) (current_level : Z)
    (labels : buf Z) (q : queue) : res (queue * bool) :=
  for_ 0 height (fun y st =>
    for_ 0 width (fun x st =>
      scan_pixel width height gray create_boundaries current_level labels x y st) st) (q, false).

(** watershed_segmentation.c:256-260; [fuel] bounds the iterations *)
Definition drain (fuel : nat) (width : Z) (q : queue) (labels : buf Z) : res (queue * buf Z) :=
  while_ fuel (fun st =>
    let '(q, labels) := st in
    if qsize q =? 0 then Ok (inr (q, labels)) else
    r <- dequeue q ;;
    let '(ix, iy, il, q) := r in
    let idx := s32 (u32 (u32 (iy * width) + ix)) in
    labels <- store labels idx il ;;
    Ok (inl (q, labels))) (q, labels).

(** watershed_segmentation.c:198-261: one level *)
Definition flood_level (fuel : nat) (width height : Z) (gray : buf Z) (create_boundaries : bool)
    (current_level : Z) (st : queue * buf Z) : res (queue * buf Z) :=
  while_ fuel (fun st =>
    let '(q, labels) := st in
    r <- scan width height gray create_boundaries current_level labels q ;;
    let '(q, changed) := r in
    r <- drain fuel width q labels ;;
    if (changed : bool) then Ok (inl r) else Ok (inr r)) st.

(** watershed_segmentation.c:195-262 *)
Definition flood (fuel : nat) (width height : Z) (gray : buf Z) (create_boundaries : bool)
    (st : queue * buf Z) : res (queue * buf Z) :=
  for_ 0 256 (fun current_level st =>
    flood_level fuel width height gray create_boundaries current_level st) st.

(** watershed_segmentation.c:267-278 *)
Definition colors : list (Z * Z * Z) :=
  [(255,0,0); (0,255,0); (0,0,255); (255,255,0); (255,0,255); (0,255,255); (255,128,0); (128,0,255);
   (255,192,203); (128,128,128)].

(** watershed_segmentation.c:285-302: the colour of one label *)
Definition color_of (label : Z) : Z * Z * Z :=
  if label =? -1 then (0, 0, 0) else
  if (0 <=? label) && (label <? 10) then nth (Z.to_nat label) colors (0,0,0) else (128, 128, 128).

(** watershed_segmentation.c:281-304 *)
Definition paint_labels (img_length_px : Z) (labels output : buf Z) : res (buf Z) :=
  for_u32 0 img_length_px (fun i output =>
    let rgba_idx := u32 (i * 4) in
    label <- load labels i ;;
    let '(r, g, b) := color_of label in
    output <- store output rgba_idx r ;;
    output <- store output (u32 (rgba_idx + 1)) g ;;
    output <- store output (u32 (rgba_idx + 2)) b ;;
    store output (u32 (rgba_idx + 3)) 255) output.

(** watershed_segmentation.c:105-309 [fcv_watershed_segmentation]; [fuel] bounds
    the iterations of the two while loops.  The blocks of [labels] and of the
    queue are local, so their contents are passed along instead of being
    written back before they are freed. *)
Definition watershed (fuel : nat) (width height : Z) (grayscale_data markers : ptr) (num_markers : Z)
    (create_boundaries : bool) : M ptr :=
  if is_null grayscale_data || is_null markers || (num_markers =? 0) then ret Null else
  if (width =? 0) || (height =? 0) then ret Null else
  mk <-- get_pts markers ;;
  valid <-- lift (check_markers width height mk num_markers) ;;
  if negb valid then ret Null else
  if SIZE_MAX / height <? width then ret Null else
  let img_length_px := u64 (width * height) in
  if SIZE_MAX / 4 <? img_length_px then ret Null else
  output_data <-- malloc_bytes (img_length_px * 4) ;;
  if is_null output_data then ret Null else
  labels_p <-- alloc (OInts (bnew img_length_px)) ;;
  if is_null labels_p then (_ <-- free output_data ;; ret Null) else
  labels <-- get_ints labels_p ;;
  labels <-- lift (init_labels img_length_px labels) ;;
  oq <-- create_queue img_length_px ;;
  match oq with
  | None => _ <-- free output_data ;; _ <-- free labels_p ;; ret Null
  | Some (queue_p, items_p, q) =>
      r <-- lift (place_markers width mk num_markers q labels) ;;
      gray <-- get_bytes grayscale_data ;;
      r <-- lift (flood fuel width height gray create_boundaries r) ;;
      _ <-- destroy_queue queue_p items_p ;;
      output <-- get_bytes output_data ;;
      output <-- lift (paint_labels img_length_px (snd r) output) ;;
      _ <-- put_bytes output_data output ;;
      _ <-- free labels_p ;;
      ret output_data
  end.
