(** * Model of src/perspectivetransform.c *)
From Coq Require Import Reals.
From Flocq Require Import Core.
From Verif Require Import Base F Heap.
Local Open Scope Z_scope.

(** include/1_types.h:19-23 Matrix3x3 is [OMat [m00; m01; m02; m10; m11; m12; m20;
    m21; m22]]; [mc m i] is its [i]-th number. *)
Definition mc (m : list f64) (i : nat) : f64 := nth i m d0.
Definition get_mat (p : ptr) : M (list f64) :=
  o <-- get_obj p ;;
  match o with OMat m => ret m | _ => fun _ => UB BadType end.

(** ** Applying a matrix *)

(** perspectivetransform.c:288, 293-294: [a * out_x + b * out_y + c] *)
Definition row (a b c : f64) (x y : Z) : f64 :=
  dadd (dadd (dmul a (d_of_Z x)) (dmul b (d_of_Z y))) c.

(** perspectivetransform.c:321-324, 328: an int index [(y * w + x) * 4] *)
Definition idx4 (y w x : Z) : res Z :=
  a <- ck32 (y * w) ;;
  a <- ck32 (a + x) ;;
  ck32 (a * 4).

(** perspectivetransform.c:329-330; [p00[c] * (1 - dx) * (1 - dy) + ...] with the
    int operands converted to double *)
Definition blend (p00 p01 p10 p11 : Z) (dx dy : f64) : f64 :=
  dadd (dadd (dadd (dmul (dmul (d_of_Z p00) (dsub d1 dx)) (dsub d1 dy))
                   (dmul (dmul (d_of_Z p01) dx) (dsub d1 dy)))
             (dmul (dmul (d_of_Z p10) (dsub d1 dx)) dy))
       (dmul (dmul (d_of_Z p11) dx) dy).

(** perspectivetransform.c:286-334: one output pixel *)
Definition map_px (in_width in_height out_width : Z) (src : buf Z) (m : list f64) (out_x out_y : Z)
    (out : buf Z) : res (buf Z) :=
  let w := row (mc m 6) (mc m 7) (mc m 8) out_x out_y in
  if dlt (dabs w) (lit 1 10000000000) then Ok out else
  let srcX := ddiv (row (mc m 0) (mc m 1) (mc m 2) out_x out_y) w in
  let srcY := ddiv (row (mc m 3) (mc m 4) (mc m 5) out_x out_y) w in
  x0 <- to_i32 (dfloor srcX) ;;
  y0 <- to_i32 (dfloor srcY) ;;
  x1 <- ck32 (x0 + 1) ;;
  y1 <- ck32 (y0 + 1) ;;
  if (0 <=? x0) && (x0 <? in_width) && (0 <=? y0) && (y0 <? in_height) then
    let x1c := if x1 <? in_width then x1 else x0 in
    let y1c := if y1 <? in_height then y1 else y0 in
    let dx := if x1c =? x0 then d0 else dsub srcX (d_of_Z x0) in
    let dy := if y1c =? y0 then d0 else dsub srcY (d_of_Z y0) in
    i00 <- idx4 y0 in_width x0 ;;
    i01 <- idx4 y0 in_width x1c ;;
    i10 <- idx4 y1c in_width x0 ;;
    i11 <- idx4 y1c in_width x1c ;;
    for_ 0 4 (fun c out =>
      p00 <- load src (i00 + c) ;;
      p01 <- load src (i01 + c) ;;
      p10 <- load src (i10 + c) ;;
      p11 <- load src (i11 + c) ;;
      o <- idx4 out_y out_width out_x ;;
      o <- ck32 (o + c) ;;
      v <- to_u8 (blend p00 p01 p10 p11 dx dy) ;;
      store out o v) out
  else Ok out.

(** perspectivetransform.c:283-337 *)
Definition map_loop (in_width in_height out_width out_height : Z) (src : buf Z) (m : list f64)
    (out : buf Z) : res (buf Z) :=
  for_ 0 out_height (fun out_y out => for_ 0 out_width (fun out_x out =>
    map_px in_width in_height out_width src m out_x out_y out) out) out.

(** perspectivetransform.c:270-274: the matrix after the patch, if it is patched *)
Definition patch (in_width in_height : Z) (m : list f64) : option (list f64) :=
  if dlt (dabs (dadd (mc m 0) d1)) (lit 1 1000000000) && dlt (dabs (dadd (mc m 4) d1)) (lit 1 1000000000) &&
     deq (mc m 2) d0 && deq (mc m 5) d0
  then Some [mc m 0; mc m 1; d_of_Z (in_width - 1); mc m 3; mc m 4; d_of_Z (in_height - 1); mc m 6; mc m 7; mc m 8]
  else None.

(** perspectivetransform.c:241-340 [fcv_apply_matrix_3x3]; sizes are int32_t.
    [in_width - 1] cannot overflow as in_width > 0. *)
Definition apply_matrix_3x3 (in_width in_height : Z) (in_data : ptr) (out_width out_height : Z) (tmat : ptr) : M ptr :=
  if is_null in_data || is_null tmat then ret Null else
  if (in_width <=? 0) || (in_height <=? 0) || (out_width <=? 0) || (out_height <=? 0) then ret Null else
  if SIZE_MAX / out_height <? out_width then ret Null else
  let out_pixels := u64 (out_width * out_height) in
  if SIZE_MAX / 4 <? out_pixels then ret Null else
  m <-- get_mat tmat ;;
  _ <-- match patch in_width in_height m with
        | Some m' => put_obj tmat (OMat m')
        | None => ret tt
        end ;;
  out_data <-- alloc (OBytes (bconst (u64 (out_pixels * 4)) 0)) ;;
  if is_null out_data then ret Null else
  m <-- get_mat tmat ;;
  src <-- get_bytes in_data ;;
  out <-- get_bytes out_data ;;
  out <-- lift (map_loop in_width in_height out_width out_height src m out) ;;
  _ <-- put_bytes out_data out ;;
  ret out_data.

(** ** The linear system *)

(** The solver is written once for any arithmetic: [f64_arith] is the program,
    [real_arith] the same algorithm without rounding.  [a_eps] and [a_big] are the
    constants of perspectivetransform.c:29 and 214. *)
Record arith (T : Type) := mkarith {
  a_0 : T; a_1 : T; a_neg : T -> T; a_sub : T -> T -> T; a_mul : T -> T -> T; a_div : T -> T -> T; a_abs : T -> T;
  a_lt : T -> T -> bool; a_eps : T; a_big : T; a_finite : T -> bool }.
Arguments mkarith {T}. Arguments a_0 {T}. Arguments a_1 {T}. Arguments a_neg {T}. Arguments a_sub {T}.
Arguments a_mul {T}. Arguments a_div {T}. Arguments a_abs {T}. Arguments a_lt {T}. Arguments a_eps {T}.
Arguments a_big {T}. Arguments a_finite {T}.

Definition f64_arith : arith f64 :=
  mkarith d0 d1 dneg dsub dmul ddiv dabs dlt (lit 1 10000000000) (d_of_Z 1000000) dfinite.
Definition real_arith : arith R :=
  mkarith 0%R 1%R Ropp Rminus Rmult Rdiv Rabs Rlt_bool (1 / 10000000000)%R 1000000%R (fun _ => true).

Section Solver.
Context {T : Type} (ar : arith T).
(** Rows and columns are naturals below 8 and 9; a matrix is a list of rows. *)
Definition row_at (aug : list (list T)) (i : nat) : list T := nth i aug [].
Definition at_ (aug : list (list T)) (i j : nat) : T := nth j (row_at aug i) (a_0 ar).
Fixpoint set_nth {A} (l : list A) (i : nat) (v : A) : list A :=
  match l, i with
  | [], _ => []
  | _ :: t, O => v :: t
  | a :: t, S i' => a :: set_nth t i' v
  end.

(** perspectivetransform.c:47-54: row and size of the pivot of column [i], the
    rows [k], ..., [k + n - 1] being still to be looked at *)
Fixpoint find_pivot (aug : list (list T)) (i k n max_row : nat) (max_val : T) : nat * T :=
  match n with
  | O => (max_row, max_val)
  | S n' =>
      let v := a_abs ar (at_ aug k i) in
      if a_lt ar max_val v then find_pivot aug i (S k) n' k v else find_pivot aug i (S k) n' max_row max_val
  end.

(** perspectivetransform.c:63-69 *)
Definition swap_rows (aug : list (list T)) (i r : nat) : list (list T) :=
  if Nat.eqb r i then aug else set_nth (set_nth aug i (row_at aug r)) r (row_at aug i).

(** perspectivetransform.c:74-76: subtract [factor] times the row [p] from the row
    [q], from column [i] on; the columns before are not touched.  The factor was
    computed before column [i] is overwritten. *)
Fixpoint row_sub (i : nat) (factor : T) (q p : list T) : list T :=
  match q, p with
  | a :: q', b :: p' =>
      match i with
      | O => a_sub ar a (a_mul ar factor b) :: row_sub O factor q' p'
      | S i' => a :: row_sub i' factor q' p'
      end
  | _, _ => q
  end.

(** perspectivetransform.c:72-77, for the rows [j], ..., [j + n - 1] *)
Fixpoint eliminate (aug : list (list T)) (i j n : nat) : list (list T) :=
  match n with
  | O => aug
  | S n' =>
      let factor := a_div ar (at_ aug j i) (at_ aug i i) in
      eliminate (set_nth aug j (row_sub i factor (row_at aug j) (row_at aug i))) i (S j) n'
  end.

(** perspectivetransform.c:44-78, for the columns [i], ..., [i + n - 1]; [None]:
    return 0 *)
Fixpoint forward (aug : list (list T)) (i n : nat) : option (list (list T)) :=
  match n with
  | O => Some aug
  | S n' =>
      let '(max_row, max_val) := find_pivot aug i (S i) n' i (a_abs ar (at_ aug i i)) in
      if a_lt ar max_val (a_eps ar) then None else
      forward (eliminate (swap_rows aug i max_row) i (S i) n') (S i) n'
  end.

(** perspectivetransform.c:87-90: [acc - aug[i][j] * x[j] - ...]; [xs]: the values
    [x[j], x[j+1], ..., x[7]] *)
Fixpoint back_row (aug : list (list T)) (i j : nat) (xs : list T) (acc : T) : T :=
  match xs with
  | [] => acc
  | x :: xs' => back_row aug i (S j) xs' (a_sub ar acc (a_mul ar (at_ aug i j) x))
  end.

(** perspectivetransform.c:81-97, for the rows [n - 1], ..., 0; [xs]: the values
    [x[n], ..., x[7]] *)
Fixpoint backward (aug : list (list T)) (n : nat) (xs : list T) : option (list T) :=
  match n with
  | O => Some xs
  | S i =>
      if a_lt ar (a_abs ar (at_ aug i i)) (a_eps ar) then None else
      let v := a_div ar (back_row aug i n xs (at_ aug i 8)) (at_ aug i i) in
      if negb (a_finite ar v) then None else backward aug i (v :: xs)
  end.

(** perspectivetransform.c:27-98 [solve_linear_system]; [aug]: the matrix [A|b] of
    lines 33-42, without its unused last column *)
Definition solve_linear_system (aug : list (list T)) : option (list T) :=
  match forward aug 0 8 with
  | None => None
  | Some aug => backward aug 8 []
  end.

(** include/1_types.h:12-17 Corners: top left, top right, bottom right, bottom left *)
Record corners := mkcorners { c_tl : T * T; c_tr : T * T; c_br : T * T; c_bl : T * T }.
Definition corner_list (c : corners) : list (T * T) := [c_tl c; c_tr c; c_br c; c_bl c].

(** perspectivetransform.c:191-205: the two equations of a pair of corners *)
Definition eq_x (s d : T * T) : list T :=
  let '(sx, sy) := s in let '(dx, dy) := d in
  [sx; sy; a_1 ar; a_0 ar; a_0 ar; a_0 ar; a_mul ar (a_neg ar sx) dx; a_mul ar (a_neg ar sy) dx; dx].
Definition eq_y (s d : T * T) : list T :=
  let '(sx, sy) := s in let '(dx, dy) := d in
  [a_0 ar; a_0 ar; a_0 ar; sx; sy; a_1 ar; a_mul ar (a_neg ar sx) dy; a_mul ar (a_neg ar sy) dy; dy].

(** perspectivetransform.c:143-205: [A|b]; [None]: a coordinate is NaN or infinite.
    The C code looks for infinities while it fills A; nothing else depends on that. *)
Definition pt_finite (p : T * T) : bool := a_finite ar (fst p) && a_finite ar (snd p).
Definition equations (src dst : corners) : option (list (list T)) :=
  if forallb pt_finite (corner_list src) && forallb pt_finite (corner_list dst) then
    let ps := combine (corner_list src) (corner_list dst) in
    Some (map (fun p => eq_x (fst p) (snd p)) ps ++ map (fun p => eq_y (fst p) (snd p)) ps)
  else None.

(** perspectivetransform.c:209-219: the solution, if it is accepted *)
Definition transform (src dst : corners) : option (list T) :=
  match equations src dst with
  | None => None
  | Some aug =>
      match solve_linear_system aug with
      | None => None
      | Some x =>
          if existsb (fun v => negb (a_finite ar v) || a_lt ar (a_big ar) (a_abs ar v)) x then None
          else Some (x ++ [a_1 ar])
      end
  end.
End Solver.
Arguments corners : clear implicits.

(** perspectivetransform.c:104-239 [fcv_calculate_perspective_transform];
    [identity]: address of the static matrix; the corners are passed by value
    ([None]: NULL).  malloc is not checked (line 221-222).  The final validation
    (lines 231-236) repeats the previous one and never fails. *)
Definition calculate_perspective_transform (identity : ptr) (src dst : option (corners f64)) : M ptr :=
  match src, dst with
  | Some src, Some dst =>
      match transform f64_arith src dst with
      | None => ret identity
      | Some m =>
          result <-- alloc (OMat []) ;;
          _ <-- put_obj result (OMat m) ;;
          ret result
      end
  | _, _ => ret identity
  end.
