(** Fast approximations of sqrt, exp, ln and pow, and the guarded exp and pow
    (src/utils_math.h, src/utils_math.cpp), in IEEE binary32 and binary64, round
    to nearest even, operation by operation as written (FLT_EVAL_METHOD 0, no
    fused multiply-add). A union is the bit pattern of its float member; NaN
    payloads are not represented. [long] has 64 bits (LP64). Proof-free. *)
From Coq Require Import ZArith Bool List.
From Flocq Require Import BinarySingleNaN.
From Verif Require Import Base FloatModel TypeModel MongoModel CellModel FastTable.
Import ListNotations.
Open Scope Z_scope.
Open Scope outcome_scope.

(** ** Arithmetic of one floating type T ([float] or [double]) *)
Section Format.
Variables prec emax : Z.
(** The type parameter of utils_math.h:247-283. *)
Variable Hp : FLX.Prec_gt_0 prec.
(** The type parameter of utils_math.h:247-283. *)
Variable He : Prec_lt_emax prec emax.

(** The type parameter of utils_math.h:247-283. *)
Definition flo : Type := binary_float prec emax.
(** The operators of C++ on T, utils_math.h:239-335, utils_math.cpp:18-94. *)
Definition add (a b : flo) : flo := Bplus mode_NE a b.
(** Operators as used in utils_math.h:247-283, utils_math.cpp:18-94. *)
Definition sub (a b : flo) : flo := Bminus mode_NE a b.
(** Operators as used in utils_math.h:247-283, utils_math.cpp:18-94. *)
Definition mul (a b : flo) : flo := Bmult mode_NE a b.
(** Operators as used in utils_math.h:247-283, utils_math.cpp:18-94. *)
Definition div (a b : flo) : flo := Bdiv mode_NE a b.
(** An integer converted to T.
    Operators as used in utils_math.h:247-283, utils_math.cpp:18-94. *)
Definition int_to (z : Z) : flo := binary_normalize prec emax Hp He mode_NE z 0 false.
(** The literal n * 10^-k, for literals not below 2^-60 in magnitude: the exact
    quotient to 200 binary places, its last bit set when inexact, then rounded
    to T. The literals of utils_math.h:249-252, utils_math.cpp:23-93. *)
Definition lit (n k : Z) : flo :=
  let d := 10 ^ k in
  let q := Z.abs n * 2 ^ 200 / d in
  let sticky := if q * d =? Z.abs n * 2 ^ 200 then 0 else 1 in
  let v := binary_normalize prec emax Hp He mode_NE (2 * q + sticky) (-201) false in
  if n <? 0 then Bopp v else v.

(** The constants of utils_math.h:249-252 and 269, [static_cast<T>] of doubles. *)
Record exp_consts := mkExp { k1 : flo; k2 : flo; k3 : flo; k4 : flo; kln2 : flo }.
(** utils_math.h:249-252, 269. *)
Variable K : exp_consts.

(** utils_math.h:247-260 __p_exp_ln2. *)
Definition p_exp_ln2 (x : flo) : flo :=
  let exp_x := add (add (add (add (int_to 1)
                                  (mul (k1 K) x))
                             (mul (mul (k2 K) x) x))
                        (mul (mul (mul (k3 K) x) x) x))
                   (mul (mul (mul (mul (k4 K) x) x) x) x) in
  div (int_to 1) exp_x.

(** [k = x / ln2] of a T to [long]: undefined when it does not fit. utils_math.h:271. *)
Definition to_long (x : flo) : outcome Z :=
  if is_finite x
  then let z := Btrunc x in if (- 2 ^ 63 <=? z) && (z <? 2 ^ 63) then Ok z else UB
  else UB.

(** [1ULL << k] stored in a [long]: undefined outside 0..63; 2^63 becomes -2^63.
    utils_math.h:272. *)
Definition shift1 (k : Z) : outcome Z :=
  if (0 <=? k) && (k <? 64) then Ok (if k =? 63 then - 2 ^ 63 else 2 ^ k) else UB.

(** utils_math.h:266-275 __p_exp_pos. *)
Definition p_exp_pos (x : flo) : outcome flo :=
  let* k := to_long (div x (kln2 K)) in
  let* twok := shift1 k in
  let x_ := sub x (mul (int_to k) (kln2 K)) in
  Ok (mul (int_to twok) (p_exp_ln2 x_)).

(** utils_math.h:277-283 ApprExp. *)
Definition ApprExp (x : flo) : outcome flo :=
  if Bleb (int_to 0) x then p_exp_pos x
  else let* p := p_exp_pos (Bopp x) in Ok (div (int_to 1) p).
End Format.

Notation lit32 := (lit 24 128 prec_gt_0_24 prec_lt_24).
Notation lit64 := (lit 53 1024 prec_gt_0_53 prec_lt_53).
Notation add32 := (add 24 128 prec_gt_0_24 prec_lt_24).
Notation add64 := (add 53 1024 prec_gt_0_53 prec_lt_53).
Notation sub32 := (sub 24 128 prec_gt_0_24 prec_lt_24).
Notation sub64 := (sub 53 1024 prec_gt_0_53 prec_lt_53).
Notation mul32 := (mul 24 128 prec_gt_0_24 prec_lt_24).
Notation mul64 := (mul 53 1024 prec_gt_0_53 prec_lt_53).

(** utils_math.h:28-30 and 22-24: M_LN2 and M_LOG2E, doubles. *)
Definition M_LN2 : f64 := lit64 69314718055994530942 20.
(** utils_math.h:23. *)
Definition M_LOG2E : f64 := lit64 14426950408889634074 19.
(** utils_math.h:58-60: M_2POW23, a float. *)
Definition M_2POW23 : f32 := f32_of_int 8388608.

(** utils_math.h:249-252 and 269 for T = double and T = float. *)
Definition a1 : f64 := lit64 (-9998684) 7.
(** utils_math.h:250-252. *)
Definition a2 : f64 := lit64 4982926 7.
(** utils_math.h:250-252. *)
Definition a3 : f64 := lit64 (-1595332) 7.
(** utils_math.h:250-252. *)
Definition a4 : f64 := lit64 293641 7.
(** utils_math.h:249-252, 269 for the two types. *)
Definition exp64 : exp_consts 53 1024 := mkExp 53 1024 a1 a2 a3 a4 M_LN2.
(** utils_math.h:249-252, 269 for the two types. *)
Definition exp32 : exp_consts 24 128 :=
  mkExp 24 128 (f32_of_f64 a1) (f32_of_f64 a2) (f32_of_f64 a3) (f32_of_f64 a4) (f32_of_f64 M_LN2).

(** ApprExp<double> and ApprExp<float>. utils_math.h:277-283. *)
Definition ApprExp64 (x : f64) : outcome f64 := ApprExp 53 1024 prec_gt_0_53 prec_lt_53 exp64 x.
(** utils_math.h:277-283. *)
Definition ApprExp32 (x : f32) : outcome f32 := ApprExp 24 128 prec_gt_0_24 prec_lt_24 exp32 x.

(** ** sqrt *)

(** utils_math.cpp:31-33: one Newton step, for float and double. *)
Definition newton32 (xhalf x : f32) : f32 := mul32 x (sub32 (lit32 15 1) (mul32 (mul32 xhalf x) x)).
(** utils_math.cpp:52-54. *)
Definition newton64 (xhalf x : f64) : f64 := mul64 x (sub64 (lit64 15 1) (mul64 (mul64 xhalf x) x)).

(** utils_math.cpp:18-39 ApprSqrt(float); unsigned arithmetic wraps. *)
Definition ApprSqrt32 (z : f32) : f32 :=
  let xhalf := mul32 (lit32 5 1) z in
  let x := of_bits32 ((0x5f375a86 - bits32 z / 2) mod 2 ^ 32) in
  let x := newton32 xhalf x in
  let x := newton32 xhalf x in
  let x := newton32 xhalf x in
  mul32 z x.

(** utils_math.cpp:41-57 ApprSqrt(double). *)
Definition ApprSqrt64 (z : f64) : f64 :=
  let xhalf := mul64 (lit64 5 1) z in
  let x := of_bits64 ((0x5fe6eb50c7b537a9 - bits64 z / 2) mod 2 ^ 64) in
  let x := newton64 xhalf x in
  let x := newton64 xhalf x in
  let x := newton64 xhalf x in
  mul64 z x.

(** ** ln *)

(** utils_math.cpp:59-80 ApprLn(float). *)
Definition ApprLn32 (z : f32) : f32 :=
  let u := bits32 z in
  let e := (u / 2 ^ 23) mod 2 ^ 8 - 128 in
  let f := of_bits32 (u mod 2 ^ 23 + 0x3f800000) in
  let r := sub32 (mul32 (add32 (mul32 (sub32 (mul32 (lit32 15824870 8) f) (lit32 105187502 8)) f)
                               (lit32 304788415 8)) f)
                 (lit32 115360271 8) in
  mul32 (add32 (f32_of_int e) r) (f32_of_f64 M_LN2).

(** utils_math.cpp:82-94 ApprLn(double). *)
Definition ApprLn64 (z : f64) : f64 :=
  let u := bits64 z in
  let e := (u / 2 ^ 52) mod 2 ^ 11 - 1024 in
  let f := of_bits64 (u mod 2 ^ 52 + 0x3ff0000000000000) in
  let r := sub64 (mul64 (add64 (mul64 (sub64 (mul64 (lit64 1582487026083649643648 22) f)
                                             (lit64 10518750217176431040285 22)) f)
                               (lit64 30478841468943745615315 22)) f)
                 (lit64 11536207104929913242752 22) in
  mul64 (add64 (of_int e) r) M_LN2.

(** ** pow *)

(** [static_cast<vuint32_t>] of a float: undefined when the integer part does
    not fit. utils_math.cpp:361. *)
Definition to_uint32 (x : f32) : outcome Z := cast_int 0 (2 ^ 32 - 1) (f64_of_f32 x).

(** utils_math.cpp:356-364 pow_lookup; [& 0xFF800000 |] is written with the
    arithmetic of the fields (the table has entries below 2^23). *)
Definition pow_lookup (exp log_base : f32) : outcome f32 :=
  let* i := to_uint32 (add32 (mul32 (mul32 (mul32 exp M_2POW23) log_base) (f32_of_f64 M_LOG2E))
                             (mul32 (f32_of_int 127) M_2POW23)) in
  let* m := aget pow_mantissa_table ((i mod 2 ^ 23) / 2 ^ (23 - 11)) in
  Ok (of_bits32 (Z.lor (i / 2 ^ 23 * 2 ^ 23) m)).

(** utils_math.h:323-326 ApprPow. *)
Definition ApprPow (a b : f32) : outcome f32 := pow_lookup b (ApprLn32 a).

(** utils_math.h:328-335 CalPow with USE_APPR_PAL_MATH, for T1 = T2 = double. *)
Definition CalPow (a b : f64) : outcome f64 :=
  let* p := ApprPow (f32_of_f64 a) (f32_of_f64 b) in Ok (f64_of_f32 p).

(** ** The guarded functions; [exp] and [pow] of the C library are parameters. *)
Section Guarded.
(** External: exp of the C library (utils_math.cpp:8). *)
Variable exp : f32 -> f32.
(** External: pow of the C library (utils_math.cpp:13, 15). *)
Variable pow : f32 -> f32 -> f32.

(** utils_math.cpp:5-9 Expo. *)
Definition Expo (xx upper lower : f32) : f32 :=
  let xx := if Bltb xx lower then lower else xx in
  let xx := if Bltb upper xx then upper else xx in
  exp xx.

(** utils_math.cpp:11-16 Power. *)
Definition Power (a n : f32) : f32 :=
  if Bleb (B754_zero false) a then pow a n else Bopp (pow (Bopp a) n).
End Guarded.
