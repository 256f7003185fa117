(** * M_Peaks: model of src/corner_peaks.c *)
From Verif Require Import Base F Heap.

(** corner_peaks.c:28, 41, 108: [(y * width + x) * 2 + channel] in uint32_t *)
Definition peak_idx (width x y channel : Z) : Z :=
  u32 (u32 (u32 (u32 (y * width) + x) * 2) + channel).

(** corner_peaks.c:17-50 [is_local_maximum] *)
Definition is_local_maximum (data : buf Z) (width height x y channel : Z) : res bool :=
  if (x =? 0) || (y =? 0) || (u32 (width - 1) <=? x) || (u32 (height - 1) <=? y) then Ok false else
  center_val <- load data (peak_idx width x y channel) ;;
  if center_val =? 0 then Ok false else
  r <- for_brk (-1) 2 (fun dy (_ : unit) =>
    for_brk (-1) 2 (fun dx (_ : unit) =>
      if (dx =? 0) && (dy =? 0) then Ok (inl tt) else
      v <- load data (peak_idx width (u32 (x + dx)) (u32 (y + dy)) channel) ;;
      if center_val <? v then Ok (inr tt) else Ok (inl tt)) tt) tt ;;
  Ok (match r with inl _ => true | inr _ => false end).

(** corner_peaks.c:52-56 [euclidean_distance] *)
Definition euclidean_distance (a b : f64 * f64) : f64 :=
  let dx := dsub (fst a) (fst b) in
  let dy := dsub (snd a) (snd b) in
  dsqrt (dadd (dmul dx dx) (dmul dy dy)).

(** corner_peaks.c:102-121: the candidates and their number *)
Definition find_candidates (width height : Z) (data : buf Z) (acc rnd : f64) (candidates : buf (f64 * f64))
  : res (buf (f64 * f64) * Z) :=
  for_ 1 (u32 (height - 1)) (fun y st =>
    for_ 1 (u32 (width - 1)) (fun x st =>
      let '(candidates, count) := st in
      let idx := u32 (u32 (u32 (y * width) + x) * 2) in
      wv <- load data idx ;;
      qv <- load data (u32 (idx + 1)) ;;
      let w := ddiv (d_of_Z wv) (d_of_Z 255) in
      let q := ddiv (d_of_Z qv) (d_of_Z 255) in
      if dlt rnd q && dlt acc w then
        m <- is_local_maximum data width height x y 0 ;;
        if m : bool then
          candidates <- store candidates count (d_of_Z x, d_of_Z y) ;;
          Ok (candidates, u32 (count + 1))
        else Ok st
      else Ok st) st) (candidates, 0).

(** corner_peaks.c:148-151: the response at a candidate *)
Definition cand_val (width : Z) (data : buf Z) (p : f64 * f64) : res Z :=
  y <- to_u32 (snd p) ;;
  x <- to_u32 (fst p) ;;
  load data (u32 (u32 (u32 (y * width) + x) * 2)).

(** corner_peaks.c:137-162: non-maximum suppression *)
Definition suppress (width : Z) (data : buf Z) (min_distance : Z) (candidates : buf (f64 * f64)) (count : Z)
  (rejected : buf Z) : res (buf Z) :=
  for_ 0 count (fun i rejected =>
    ri <- load rejected i ;;
    if negb (ri =? 0) then Ok rejected else
    r <- for_brk (u32 (i + 1)) count (fun j rejected =>
      rj <- load rejected j ;;
      if negb (rj =? 0) then Ok (inl rejected) else
      pi <- load candidates i ;;
      pj <- load candidates j ;;
      if dlt (euclidean_distance pi pj) (d_of_Z min_distance) then
        vi <- cand_val width data pi ;;
        vj <- cand_val width data pj ;;
        if vj <=? vi then
          rejected <- store rejected j 1 ;; Ok (inl rejected)
        else
          rejected <- store rejected i 1 ;; Ok (inr rejected)
      else Ok (inl rejected)) rejected ;;
    Ok (match r with inl b => b | inr b => b end)) rejected.

(** corner_peaks.c:164-169: final_count *)
Definition count_kept (rejected : buf Z) (count : Z) : res Z :=
  for_ 0 count (fun i n =>
    ri <- load rejected i ;;
    Ok (if ri =? 0 then u32 (n + 1) else n)) 0.

(** corner_peaks.c:178-184 *)
Definition copy_kept (rejected : buf Z) (candidates : buf (f64 * f64)) (count : Z) (final : buf (f64 * f64))
  : res (buf (f64 * f64) * Z) :=
  for_ 0 count (fun i st =>
    let '(final, idx) := st in
    ri <- load rejected i ;;
    if ri =? 0 then
      p <- load candidates i ;;
      final <- store final idx p ;;
      Ok (final, u32 (idx + 1))
    else Ok st) (final, 0).

(** corner_peaks.c:70-200 [fcv_corner_peaks].  sizeof(Point2D) is 16. *)
Definition corner_peaks (width height : Z) (data : ptr) (min_distance : Z) (acc rnd : f64) : M ptr :=
  if is_null data || (width =? 0) || (height =? 0) then ret Null else
  if negb (dfinite acc) || negb (dfinite rnd) then ret Null else
  if SIZE_MAX / height <? width then ret Null else
  let num_pixels := u64 (width * height) in
  if SIZE_MAX / 16 <? num_pixels then ret Null else
  candidates <-- alloc (OPts (bnew num_pixels)) ;;
  if is_null candidates then ret Null else
  src <-- get_bytes data ;;
  c <-- get_pts candidates ;;
  cn <-- lift (find_candidates width height src acc rnd c) ;;
  let candidate_count := snd cn in
  _ <-- put_obj candidates (OPts (fst cn)) ;;
  if candidate_count =? 0 then
    (_ <-- free candidates ;;
     alloc (OPeaks None 0))
  else
  rejected <-- alloc (OInts (bconst candidate_count 0)) ;;
  if is_null rejected then (_ <-- free candidates ;; ret Null) else
  c <-- get_pts candidates ;;
  r <-- get_ints rejected ;;
  r <-- lift (suppress width src min_distance c candidate_count r) ;;
  _ <-- put_obj rejected (OInts r) ;;
  final_count <-- lift (count_kept r candidate_count) ;;
  final_points <-- alloc (OPts (bnew final_count)) ;;
  if is_null final_points then (_ <-- free candidates ;; _ <-- free rejected ;; ret Null) else
  f <-- get_pts final_points ;;
  fn <-- lift (copy_kept r c candidate_count f) ;;
  _ <-- put_obj final_points (OPts (fst fn)) ;;
  _ <-- free candidates ;;
  _ <-- free rejected ;;
  result <-- alloc (OPeaks (match final_points with Ptr i => Some i | Null => None end) final_count) ;;
  if is_null result then (_ <-- free final_points ;; ret Null) else
  ret result.
