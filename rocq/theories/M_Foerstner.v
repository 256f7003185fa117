(** * Model of src/foerstner_corner.c *)
From Verif Require Import Base F Heap.

(** foerstner_corner.c:47-52, 56-61: [gray_data[y * width + x]] *)
Definition gray_px (gray : buf Z) (width y x : Z) : res Z := load gray (u32 (u32 (y * width) + x)).
(** [acc += k * v] *)
Definition acc_px (acc k : f64) (v : Z) : f64 := dadd acc (dmul k (d_of_Z v)).

(** foerstner_corner.c:46-52 *)
Definition grad_x_at (gray : buf Z) (width x y : Z) : res f64 :=
  a <- gray_px gray width (u32 (y - 1)) (u32 (x - 1)) ;;
  b <- gray_px gray width (u32 (y - 1)) (u32 (x + 1)) ;;
  c <- gray_px gray width y (u32 (x - 1)) ;;
  d <- gray_px gray width y (u32 (x + 1)) ;;
  e <- gray_px gray width (u32 (y + 1)) (u32 (x - 1)) ;;
  f <- gray_px gray width (u32 (y + 1)) (u32 (x + 1)) ;;
  Ok (acc_px (acc_px (acc_px (acc_px (acc_px (acc_px d0 (d_of_Z (-1)) a) d1 b) (d_of_Z (-2)) c) (d_of_Z 2) d)
        (d_of_Z (-1)) e) d1 f).

(** foerstner_corner.c:55-61 *)
Definition grad_y_at (gray : buf Z) (width x y : Z) : res f64 :=
  a <- gray_px gray width (u32 (y - 1)) (u32 (x - 1)) ;;
  b <- gray_px gray width (u32 (y - 1)) x ;;
  c <- gray_px gray width (u32 (y - 1)) (u32 (x + 1)) ;;
  d <- gray_px gray width (u32 (y + 1)) (u32 (x - 1)) ;;
  e <- gray_px gray width (u32 (y + 1)) x ;;
  f <- gray_px gray width (u32 (y + 1)) (u32 (x + 1)) ;;
  Ok (acc_px (acc_px (acc_px (acc_px (acc_px (acc_px d0 (d_of_Z (-1)) a) (d_of_Z (-2)) b) (d_of_Z (-1)) c) d1 d)
        (d_of_Z 2) e) d1 f).

(** foerstner_corner.c:41-66; the pair: grad_x, grad_y *)
Definition gradients (gray : buf Z) (width height : Z) (g : buf f64 * buf f64) : res (buf f64 * buf f64) :=
  for_u32 1 (u32 (height - 1)) (fun y g => for_u32 1 (u32 (width - 1)) (fun x g =>
    let idx := u32 (u32 (y * width) + x) in
    gx <- grad_x_at gray width x y ;;
    gy <- grad_y_at gray width x y ;;
    bx <- store (fst g) idx (ddiv gx (d_of_Z 8)) ;;
    by_ <- store (snd g) idx (ddiv gy (d_of_Z 8)) ;;
    Ok (bx, by_)) g) g.

(** Three double arrays of the same length *)
Definition buf3 : Type := (buf f64 * buf f64 * buf f64)%type.
(** foerstner_corner.c:82-86; Axx, Axy, Ayy *)
Definition products (n : Z) (grad_x grad_y : buf f64) (a : buf3) : res buf3 :=
  for_u32 0 n (fun i a =>
    let '(xx, xy, yy) := a in
    gx <- load grad_x i ;;
    gy <- load grad_y i ;;
    xx <- store xx i (dmul gx gx) ;;
    xy <- store xy i (dmul gx gy) ;;
    yy <- store yy i (dmul gy gy) ;;
    Ok (xx, xy, yy)) a.

(** foerstner_corner.c:90-93 *)
Definition kernel_size (sigma : f64) : res Z :=
  k <- to_i32 (dmul (d_of_Z 3) sigma) ;;
  let k := Z.lor k 1 in
  Ok (if k <? 3 then 3 else k).
(** foerstner_corner.c:94: kernel_size / 2 *)
Definition half_of (kernel_size : Z) : Z := Z.quot kernel_size 2.

(** foerstner_corner.c:116-127; sum_xx, sum_xy, sum_yy, count.  The index is computed
    in uint32_t and converted to int32_t (modulo 2^32, as gcc does). *)
Definition box_sum (width half x y : Z) (a : buf3) : res (f64 * f64 * f64 * Z) :=
  let '(xx, xy, yy) := a in
  for_ (- half) (half + 1) (fun ky acc => for_ (- half) (half + 1) (fun kx acc =>
    let '(sxx, sxy, syy, count) := acc in
    let sample_idx := s32 (u32 (u32 (u32 (y + ky) * width) + u32 (x + kx))) in
    vxx <- load xx sample_idx ;;
    vxy <- load xy sample_idx ;;
    vyy <- load yy sample_idx ;;
    count <- ck32 (count + 1) ;;
    Ok (dadd sxx vxx, dadd sxy vxy, dadd syy vyy, count)) acc) (d0, d0, d0, 0).

(** foerstner_corner.c:113-133; [height - half_kernel] is computed in uint32_t *)
Definition smooth (width height half : Z) (a s : buf3) : res buf3 :=
  for_u32 (u32 half) (u32 (height - half)) (fun y s => for_u32 (u32 half) (u32 (width - half)) (fun x s =>
    let '(xx, xy, yy) := s in
    let idx := u32 (u32 (y * width) + x) in
    acc <- box_sum width half x y a ;;
    let '(sxx, sxy, syy, count) := acc in
    xx <- store xx idx (ddiv sxx (d_of_Z count)) ;;
    xy <- store xy idx (ddiv sxy (d_of_Z count)) ;;
    yy <- store yy idx (ddiv syy (d_of_Z count)) ;;
    Ok (xx, xy, yy)) s) s.

(** foerstner_corner.c:180-181, fmax(0.0, v): a NaN is ignored.  (For v = -0.0 either zero may be returned; the
    rest of the function does not tell them apart.) *)
Definition fmax0 (v : f64) : f64 := if dlt d0 v then v else d0.

(** foerstner_corner.c:169-181 *)
Definition measures (xx xy yy : f64) : f64 * f64 :=
  let det_A := dsub (dmul xx yy) (dmul xy xy) in
  let trace_A := dadd xx yy in
  if dlt (lit 1 10000000000) (dabs trace_A)
  then (fmax0 (ddiv det_A trace_A), fmax0 (ddiv (dmul (d_of_Z 4) det_A) (dmul trace_A trace_A)))
  else (fmax0 d0, fmax0 d0).

(** foerstner_corner.c:168-189; w_values, q_values, max_w, max_q *)
Definition measure_all (n : Z) (s : buf3) (st : buf f64 * buf f64 * f64 * f64) : res (buf f64 * buf f64 * f64 * f64) :=
  let '(xx, xy, yy) := s in
  for_u32 0 n (fun i st =>
    let '(wv, qv, max_w, max_q) := st in
    a <- load xx i ;;
    b <- load xy i ;;
    c <- load yy i ;;
    let '(w, q) := measures a b c in
    wv <- store wv i w ;;
    qv <- store qv i q ;;
    Ok (wv, qv, (if dlt max_w w then w else max_w), (if dlt max_q q then q else max_q))) st.

(** foerstner_corner.c:195-200 *)
Definition norm_byte (v max : f64) : res Z :=
  if dlt d0 max then to_u8 (ddiv (dmul (d_of_Z 255) v) max) else Ok 0.

(** foerstner_corner.c:192-204 *)
Definition write_bytes (n : Z) (wv qv : buf f64) (max_w max_q : f64) (out : buf Z) : res (buf Z) :=
  for_u32 0 n (fun i out =>
    w <- load wv i ;;
    q <- load qv i ;;
    w_byte <- norm_byte w max_w ;;
    q_byte <- norm_byte q max_q ;;
    out <- store out (u32 (i * 2)) w_byte ;;
    store out (u32 (u32 (i * 2) + 1)) q_byte) out.

(** Frees of several pointers in a row *)
Fixpoint free_all (ps : list ptr) : M unit :=
  match ps with
  | [] => ret tt
  | p :: ps => _ <-- free p ;; free_all ps
  end.

Definition put_dbl (p : ptr) (b : buf f64) : M unit := put_obj p (ODbl b).

(** foerstner_corner.c:20-220 [fcv_foerstner_corner].  [n]: width * height in
    uint32_t; the byte counts of lines 31-32, 69-71, 96-98, 150-151 are n * 8 in
    size_t and do not wrap; the one of line 136 is computed in uint32_t. *)
Definition foerstner_corner (width height : Z) (gray_data : ptr) (sigma : f64) : M ptr :=
  if is_null gray_data || (width =? 0) || (height =? 0) then ret Null else
  let n := u32 (width * height) in
  grad_x <-- alloc (ODbl (bconst n d0)) ;;
  grad_y <-- alloc (ODbl (bconst n d0)) ;;
  if is_null grad_x || is_null grad_y then (_ <-- free_all [grad_x; grad_y] ;; ret Null) else
  gray <-- get_bytes gray_data ;;
  gx <-- get_dbl grad_x ;;
  gy <-- get_dbl grad_y ;;
  g <-- lift (gradients gray width height (gx, gy)) ;;
  _ <-- put_dbl grad_x (fst g) ;;
  _ <-- put_dbl grad_y (snd g) ;;
  Axx <-- alloc (ODbl (bnew n)) ;;
  Axy <-- alloc (ODbl (bnew n)) ;;
  Ayy <-- alloc (ODbl (bnew n)) ;;
  if is_null Axx || is_null Axy || is_null Ayy then (_ <-- free_all [grad_x; grad_y; Axx; Axy; Ayy] ;; ret Null) else
  gx <-- get_dbl grad_x ;;
  gy <-- get_dbl grad_y ;;
  xx <-- get_dbl Axx ;;
  xy <-- get_dbl Axy ;;
  yy <-- get_dbl Ayy ;;
  a <-- lift (products n gx gy (xx, xy, yy)) ;;
  _ <-- put_dbl Axx (fst (fst a)) ;;
  _ <-- put_dbl Axy (snd (fst a)) ;;
  _ <-- put_dbl Ayy (snd a) ;;
  ks <-- lift (kernel_size sigma) ;;
  let half_kernel := half_of ks in
  Axx_smooth <-- alloc (ODbl (bconst n d0)) ;;
  Axy_smooth <-- alloc (ODbl (bconst n d0)) ;;
  Ayy_smooth <-- alloc (ODbl (bconst n d0)) ;;
  if is_null Axx_smooth || is_null Axy_smooth || is_null Ayy_smooth
  then (_ <-- free_all [grad_x; grad_y; Axx; Axy; Ayy; Axx_smooth; Axy_smooth; Ayy_smooth] ;; ret Null) else
  xx <-- get_dbl Axx ;;
  xy <-- get_dbl Axy ;;
  yy <-- get_dbl Ayy ;;
  sxx <-- get_dbl Axx_smooth ;;
  sxy <-- get_dbl Axy_smooth ;;
  syy <-- get_dbl Ayy_smooth ;;
  s <-- lift (smooth width height half_kernel (xx, xy, yy) (sxx, sxy, syy)) ;;
  _ <-- put_dbl Axx_smooth (fst (fst s)) ;;
  _ <-- put_dbl Axy_smooth (snd (fst s)) ;;
  _ <-- put_dbl Ayy_smooth (snd s) ;;
  result <-- malloc_bytes (u32 (n * 2)) ;;
  if is_null result
  then (_ <-- free_all [grad_x; grad_y; Axx; Axy; Ayy; Axx_smooth; Axy_smooth; Ayy_smooth] ;; ret Null) else
  w_values <-- alloc (ODbl (bnew n)) ;;
  q_values <-- alloc (ODbl (bnew n)) ;;
  if is_null w_values || is_null q_values
  then (_ <-- free_all [result; w_values; q_values; grad_x; grad_y; Axx; Axy; Ayy; Axx_smooth; Axy_smooth; Ayy_smooth] ;;
        ret Null) else
  sxx <-- get_dbl Axx_smooth ;;
  sxy <-- get_dbl Axy_smooth ;;
  syy <-- get_dbl Ayy_smooth ;;
  wv <-- get_dbl w_values ;;
  qv <-- get_dbl q_values ;;
  m <-- lift (measure_all n (sxx, sxy, syy) (wv, qv, d0, d0)) ;;
  let '(wv, qv, max_w, max_q) := m in
  _ <-- put_dbl w_values wv ;;
  _ <-- put_dbl q_values qv ;;
  out <-- get_bytes result ;;
  out <-- lift (write_bytes n wv qv max_w max_q out) ;;
  _ <-- put_bytes result out ;;
  _ <-- free_all [w_values; q_values] ;;
  _ <-- free_all [grad_x; grad_y; Axx; Axy; Ayy; Axx_smooth; Axy_smooth; Ayy_smooth] ;;
  ret result.
