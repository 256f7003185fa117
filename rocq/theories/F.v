(** * Floating point: C [double] and [float] as Flocq binary64/binary32.

    Round to nearest even, no excess precision (FLT_EVAL_METHOD = 0), no FMA
    contraction.  NaNs are identified (BinarySingleNaN): no FlatCV code looks at
    NaN payloads. *)
From Verif Require Import Base.
From Flocq Require Export IEEE754.BinarySingleNaN.

Definition f64 := binary_float 53 1024.
Definition f32 := binary_float 24 128.

Global Instance prec64 : FLX.Prec_gt_0 53. Proof. reflexivity. Defined.
Global Instance emax64 : Prec_lt_emax 53 1024. Proof. reflexivity. Defined.
Global Instance prec32 : FLX.Prec_gt_0 24. Proof. reflexivity. Defined.
Global Instance emax32 : Prec_lt_emax 24 128. Proof. reflexivity. Defined.

Definition dadd (x y : f64) : f64 := Bplus mode_NE x y.
Definition dsub (x y : f64) : f64 := Bminus mode_NE x y.
Definition dmul (x y : f64) : f64 := Bmult mode_NE x y.
Definition ddiv (x y : f64) : f64 := Bdiv mode_NE x y.
Definition dsqrt (x : f64) : f64 := Bsqrt mode_NE x.
Definition dneg (x : f64) : f64 := Bopp x.
Definition dabs (x : f64) : f64 := Babs x.
Definition dlt (x y : f64) : bool := Bltb x y.
Definition dle (x y : f64) : bool := Bleb x y.
Definition deq (x y : f64) : bool := Beqb x y.
Definition dfinite (x : f64) : bool := is_finite x.

Definition fadd (x y : f32) : f32 := Bplus mode_NE x y.
Definition fsub (x y : f32) : f32 := Bminus mode_NE x y.
Definition fmul (x y : f32) : f32 := Bmult mode_NE x y.
Definition fdiv (x y : f32) : f32 := Bdiv mode_NE x y.
Definition flt (x y : f32) : bool := Bltb x y.
Definition fle (x y : f32) : bool := Bleb x y.
Definition feq (x y : f32) : bool := Beqb x y.

(** Conversion of an integer to double / float (correctly rounded). *)
Definition d_of_Z (z : Z) : f64 := binary_normalize 53 1024 _ _ mode_NE z 0 false.
Definition f_of_Z (z : Z) : f32 := binary_normalize 24 128 _ _ mode_NE z 0 false.

(** Conversions between the two formats. *)
Definition d_of_f (x : f32) : f64 :=
  match x with
  | B754_zero s => B754_zero s
  | B754_infinity s => B754_infinity s
  | B754_nan => B754_nan
  | B754_finite s m e _ => binary_normalize 53 1024 _ _ mode_NE (if s then Z.neg m else Z.pos m) e s
  end.
Definition f_of_d (x : f64) : f32 :=
  match x with
  | B754_zero s => B754_zero s
  | B754_infinity s => B754_infinity s
  | B754_nan => B754_nan
  | B754_finite s m e _ => binary_normalize 24 128 _ _ mode_NE (if s then Z.neg m else Z.pos m) e s
  end.

(** C literal [p/q] with [p], [q] exactly representable: correctly rounded. *)
Definition lit (p q : Z) : f64 := ddiv (d_of_Z p) (d_of_Z q).
Definition litf (p q : Z) : f32 := fdiv (f_of_Z p) (f_of_Z q).

(** Truncating conversion to an integer type with range [lo..hi]; undefined
    when the truncated value is not representable or the argument not finite. *)
Definition cast_int (lo hi : Z) (x : f64) : res Z :=
  if is_finite x then
    let z := Btrunc x in
    if (lo <=? z) && (z <=? hi) then Ok z else UB BadCast
  else UB BadCast.
Definition cast_int_f (lo hi : Z) (x : f32) : res Z :=
  if is_finite x then
    let z := Btrunc x in
    if (lo <=? z) && (z <=? hi) then Ok z else UB BadCast
  else UB BadCast.
Definition to_i32 := cast_int INT_MIN INT_MAX.
Definition to_u32 := cast_int 0 4294967295.
Definition to_u8 := cast_int 0 255.
Definition to_u8_f := cast_int_f 0 255.

(** libm functions that are exactly specified by IEEE/C: floor and ceil. *)
Definition dfloor (x : f64) : f64 := Bnearbyint mode_DN x.
Definition dceil (x : f64) : f64 := Bnearbyint mode_UP x.

(** fmin / fmax / fmaxf *)
Definition dmin (x y : f64) : f64 :=
  if is_nan x then y else if is_nan y then x else if dlt y x then y else x.
Definition dmax (x y : f64) : f64 :=
  if is_nan x then y else if is_nan y then x else if dlt x y then y else x.

Definition d0 : f64 := B754_zero false.
Definition d1 : f64 := d_of_Z 1.
Definition dnan : f64 := B754_nan.
Definition dinf : f64 := B754_infinity false.
(** 2^e *)
Definition dpow2 (e : Z) : f64 := binary_normalize 53 1024 _ _ mode_NE 1 e false.
