(** * M_Corners: model of src/sort_corners.c

    [cartesian_to_polar], [compare_polar_angles] and
    [compare_indexed_polar_angles] (lines 18-66) are called from nowhere and not
    modelled. *)
From Verif Require Import Base F Heap Spec_Corners.

(** sort_corners.c:107-123: bounding box (min_x, max_x, min_y, max_y) *)
Definition bound_step (bb : f64 * f64 * f64 * f64) (p : f64 * f64) : f64 * f64 * f64 * f64 :=
  let '(min_x, max_x, min_y, max_y) := bb in
  let min_x := if dlt (fst p) min_x then fst p else min_x in
  let max_x := if dlt max_x (fst p) then fst p else max_x in
  let min_y := if dlt (snd p) min_y then snd p else min_y in
  let max_y := if dlt max_y (snd p) then snd p else max_y in
  (min_x, max_x, min_y, max_y).

(** sort_corners.c:132-144: fabs(a - b) < 1.0 *)
Definition close1 (a b : f64) : bool := dlt (dabs (dsub a b)) d1.

(** sort_corners.c:127-147: has_tl, has_tr, has_bl, has_br *)
Definition has_step (bb : f64 * f64 * f64 * f64) (has : bool * bool * bool * bool) (p : f64 * f64) : bool * bool * bool * bool :=
  let '(min_x, max_x, min_y, max_y) := bb in
  let '(htl, htr, hbl, hbr) := has in
  let '(x, y) := p in
  if close1 x min_x && close1 y min_y then (true, htr, hbl, hbr)
  else if close1 x max_x && close1 y min_y then (htl, true, hbl, hbr)
  else if close1 x min_x && close1 y max_y then (htl, htr, true, hbr)
  else if close1 x max_x && close1 y max_y then (htl, htr, hbl, true)
  else has.

(** sort_corners.c:184-205: score of a candidate.  The score is a double in C,
    with values 0, 1, 2, 5, 6 or 7. *)
Definition score (cs : list (f64 * f64)) (c : f64 * f64) : Z :=
  let s1 := if dle d0 (fst c) then 1 else 0 in
  let s2 := if dle d0 (snd c) then 1 else 0 in
  let dup := existsb (fun q => dlt (dabs (dsub (fst c) (fst q))) (lit 1 10) &&
                               dlt (dabs (dsub (snd c) (snd q))) (lit 1 10)) cs in
  s1 + s2 + (if dup then 0 else 5).

(** sort_corners.c:168-211: parallelogram completion *)
Definition fallback (a b c : f64 * f64) : f64 * f64 :=
  let third p q r := (dsub (dadd (fst p) (fst q)) (fst r), dsub (dadd (snd p) (snd q)) (snd r)) in
  let cands := [third a b c; third a c b; third b c a] in
  snd (fold_left (fun st cand => let sc := score [a; b; c] cand in if fst st <? sc then (sc, cand) else st)
         cands (-1, third b c a)).

(** sort_corners.c:100-211: the missing fourth corner.  The loops over the three
    points are folds. *)
Definition missing_corner (a b c : f64 * f64) : f64 * f64 :=
  let bb := fold_left bound_step [b; c] (fst a, fst a, snd a, snd a) in
  let '(htl, htr, hbl, hbr) := fold_left (has_step bb) [a; b; c] (false, false, false, false) in
  let '(min_x, max_x, min_y, max_y) := bb in
  if negb htl then (min_x, min_y)
  else if negb htr then (max_x, min_y)
  else if negb hbl then (min_x, max_y)
  else if negb hbr then (max_x, max_y)
  else fallback a b c.

(** sort_corners.c:94-222: fill working_corners; yields it and
    corners_to_process *)
Definition fill_working (num_corners : Z) (cs wk : buf (f64 * f64)) : res (buf (f64 * f64) * Z) :=
  if num_corners =? 3 then
    a <- load cs 0 ;;
    b <- load cs 1 ;;
    c <- load cs 2 ;;
    wk <- store wk 0 a ;;
    wk <- store wk 1 b ;;
    wk <- store wk 2 c ;;
    wk <- store wk 3 (missing_corner a b c) ;;
    Ok (wk, 4)
  else
    wk <- for_ 0 num_corners (fun i wk => p <- load cs i ;; store wk i p) wk ;;
    Ok (wk, num_corners).

(** sort_corners.c:228-234: the centre *)
Definition find_centre (n : Z) (wk : buf (f64 * f64)) : res (f64 * f64) :=
  s <- for_ 0 n (fun i s => p <- load wk i ;; Ok (dadd (fst s) (fst p), dadd (snd s) (snd p))) (d0, d0) ;;
  Ok (ddiv (fst s) (d_of_Z n), ddiv (snd s) (d_of_Z n)).

(** sort_corners.c:237-245: index of the top-left corner *)
Definition find_top_left (n : Z) (wk : buf (f64 * f64)) : res Z :=
  p <- load wk 0 ;;
  s <- for_ 1 n (fun i s =>
    p <- load wk i ;;
    let sum := dadd (fst p) (snd p) in
    Ok (if dlt sum (snd s) then (i, sum) else s)) (0, dadd (fst p) (snd p)) ;;
  Ok (fst s).

(** sort_corners.c:248-252 [CornerInfo]: index, angle, distance *)
Notation info := (Z * f64 * f64)%type.
Definition i_index (e : info) : Z := fst (fst e).
Definition i_angle (e : info) : f64 := snd (fst e).
Definition i_dist (e : info) : f64 := snd e.

Section Sort.
(** The C library's atan2. *)
Variable atan2 : f64 -> f64 -> f64.

(** sort_corners.c:261-277 *)
Definition fill_info (n : Z) (wk : buf (f64 * f64)) (c : f64 * f64) (ib : buf info) : res (buf info) :=
  for_ 0 n (fun i ib =>
    p <- load wk i ;;
    let dx := dsub (fst p) (fst c) in
    let dy := dsub (snd p) (snd c) in
    let dist := dsqrt (dadd (dmul dx dx) (dmul dy dy)) in
    let a := atan2 dy dx in
    let a := if dlt a d0 then dadd a d2pi else a in
    store ib i (i, a, dist)) ib.

(** sort_corners.c:288-293: the two normalising loops *)
Definition normalize (fuel : nat) (a : f64) : res f64 :=
  a <- while_ fuel (fun a => if dlt a d0 then Ok (inl (dadd a d2pi)) else Ok (inr a)) a ;;
  while_ fuel (fun a => if dle d2pi a then Ok (inl (dsub a d2pi)) else Ok (inr a)) a.

(** sort_corners.c:280-294 *)
Definition adjust (fuel : nat) (n tli : Z) (ib : buf info) : res (buf info) :=
  t <- load ib tli ;;
  let top_left_angle := i_angle t in
  for_ 0 n (fun i ib =>
    e <- load ib i ;;
    a <- normalize fuel (dsub (i_angle e) top_left_angle) ;;
    store ib i (i_index e, a, i_dist e)) ib.

(** sort_corners.c:299-309: should_swap *)
Definition should_swap (e f : info) : bool :=
  if dlt (i_angle f) (i_angle e) then true
  else if dlt (dabs (dsub (i_angle e) (i_angle f))) (lit 1 1000000)
  then dlt (i_dist f) (i_dist e) else false.

(** sort_corners.c:297-317: bubble sort *)
Definition bubble (n : Z) (ib : buf info) : res (buf info) :=
  for_ 0 (u32 (n - 1)) (fun i ib =>
    for_ 0 (u32 (u32 (n - 1) - i)) (fun j ib =>
      e <- load ib j ;;
      f <- load ib (u32 (j + 1)) ;;
      if should_swap e f then
        ib <- store ib j f ;;
        store ib (u32 (j + 1)) e
      else Ok ib) ib) ib.

(** sort_corners.c:320-322 *)
Definition copy_sorted (n : Z) (ib : buf info) (wk result : buf (f64 * f64)) : res (buf (f64 * f64)) :=
  for_ 0 n (fun i result =>
    e <- load ib i ;;
    p <- load wk (i_index e) ;;
    store result i p) result.

(** sort_corners.c:325-338 *)
Definition scale_point (scale_x scale_y : f64) (result : buf (f64 * f64)) (k : Z) : res (f64 * f64) :=
  p <- load result k ;;
  Ok (dmul (fst p) scale_x, dmul (snd p) scale_y).

(** sort_corners.c:68-345 [sort_corners].  The array of CornerInfo is a heap
    block, so that its allocation can fail and a leak would show; its contents
    are the [buf info] passed along. *)
Definition sort_corners (fuel : nat) (width height out_width out_height : Z) (cs : ptr) (num_corners : Z)
  (result : ptr) : M corners :=
  if num_corners <? 3 then ret no_corners else
  let max_corners := if 4 <=? num_corners then num_corners else 4 in
  working <-- alloc (OPts (bnew max_corners)) ;;
  if is_null working then ret no_corners else
  cb <-- get_pts cs ;;
  wk <-- get_pts working ;;
  wn <-- lift (fill_working num_corners cb wk) ;;
  let '(wk, n) := wn in
  _ <-- put_obj working (OPts wk) ;;
  c <-- lift (find_centre n wk) ;;
  tli <-- lift (find_top_left n wk) ;;
  corner_info <-- alloc (OInts (bnew (3 * n))) ;;
  if is_null corner_info then (_ <-- free working ;; ret no_corners) else
  ib <-- lift (fill_info n wk c (bnew n)) ;;
  ib <-- lift (adjust fuel n tli ib) ;;
  ib <-- lift (bubble n ib) ;;
  r <-- get_pts result ;;
  r <-- lift (copy_sorted n ib wk r) ;;
  _ <-- put_obj result (OPts r) ;;
  let scale_x := ddiv (d_of_Z width) (d_of_Z out_width) in
  let scale_y := ddiv (d_of_Z height) (d_of_Z out_height) in
  p0 <-- lift (scale_point scale_x scale_y r 0) ;;
  p1 <-- lift (scale_point scale_x scale_y r 1) ;;
  p2 <-- lift (scale_point scale_x scale_y r 2) ;;
  p3 <-- lift (scale_point scale_x scale_y r 3) ;;
  _ <-- free corner_info ;;
  _ <-- free working ;;
  ret (mkc p0 p1 p2 p3).
End Sort.
