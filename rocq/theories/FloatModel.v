(** IEEE 754 binary64 arithmetic of the comparison function. *)
From Coq Require Import ZArith Bool.
From Flocq Require Import BinarySingleNaN.
Open Scope Z_scope.

(** [double]. The type FloatEqual works in (utils_math.h:141-142). *)
Definition f64 : Type := binary_float 53 1024.
(** The type FloatEqual works in (utils_math.h:141-142). *)
Definition prec_gt_0_53 : FLX.Prec_gt_0 53 := eq_refl.
(** The type FloatEqual works in (utils_math.h:141-142). *)
Definition prec_lt_53 : Prec_lt_emax 53 1024 := eq_refl.

(** [CVT_DBL] of an integer: round to nearest even. basic.h:331. *)
Definition of_int (z : Z) : f64 := binary_normalize 53 1024 prec_gt_0_53 prec_lt_53 mode_NE z 0 false.

(** A constant of the type (utils_math.h:131, 142). *)
Definition f64_zero : f64 := B754_zero false.
(** A constant of the type (utils_math.h:131, 142). *)
Definition f64_nan : f64 := B754_nan.
(** A constant of the type (utils_math.h:131, 142). *)
Definition f64_inf : f64 := B754_infinity false.

(** The literal 1.e-32: 7307508186654515 * 2^-159. utils_math.h:142. *)
Definition TINY : f64 := @B754_finite 53 1024 false 7307508186654515 (-159) eq_refl.

(** utils_math.h:129-132 Abs macro. *)
Definition fabs (x : f64) : f64 := if Bleb f64_zero x then x else Bopp x.

(** The subtraction of utils_math.h:142. *)
Definition fsub (a b : f64) : f64 := @Bminus 53 1024 prec_gt_0_53 prec_lt_53 mode_NE a b.

(** utils_math.h:140-143 FloatEqual, after both arguments became [double]. *)
Definition FloatEqual (v1 v2 : f64) : bool := Bltb (fabs (fsub v1 v2)) TINY.
