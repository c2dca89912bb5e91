(** Vocabulary for numbers as text, in terms of real numbers. *)
From Coq Require Import ZArith Reals Ascii List Bool.
From Flocq Require Import Core BinarySingleNaN.
From Verif Require Import Base StrSpec FloatModel.
Import ListNotations.

Definition radix10 : radix := Build_radix 10 eq_refl.

(** Rounding a real number to double precision (53 binary digits, exponents
    down to -1074), to nearest, ties to even. *)
Definition to_double (y : R) : R := round radix2 (FLT_exp (-1074) 53) ZnearestE y.

(** [x] is the double a real number [y] (of sign [s], which matters for zero and
    infinity) is rounded to; too large numbers give an infinity. *)
Definition double_of (s : bool) (y : R) (x : f64) : Prop :=
  (is_finite x = true /\ B2R x = to_double y /\ Bsign x = s /\ (Rabs (to_double y) < bpow radix2 1024)%R) \/
  (x = B754_infinity s /\ (bpow radix2 1024 <= Rabs (to_double y))%R).

(** Rounding to six significant decimal digits, to nearest, ties to even. *)
Definition six_digits (y : R) : R := round radix10 (FLX_exp 6) ZnearestE y.

(** At most six significant digits. *)
Definition has_six_digits (y : R) : Prop := exists d e : Z, y = (IZR d * bpow radix10 e)%R /\ (Z.abs d < 1000000)%Z.

(** In the range of the normal doubles. *)
Definition normal_range (y : R) : Prop := (bpow radix2 (-1022) <= Rabs y)%R /\ (Rabs y < bpow radix2 1023)%R.

(** ** Decimal texts *)

(** Only digits. *)
Definition digit_text (s : bytes) : Prop := Forall (fun c => In c digit_chars) s.

(** A sign: none, '+' or '-'. *)
Definition sign_text (neg : bool) (s : bytes) : Prop :=
  (neg = false /\ (s = [] \/ s = ["+"%char])) \/ (neg = true /\ s = ["-"%char]).

(** The part after the digits in front of the point: the point and the digits
    [fp], or nothing. *)
Definition fraction_text (fp s : bytes) : Prop := digit_text fp /\ (s = "."%char :: fp \/ (fp = [] /\ s = [])).

(** An exponent of ten: 'e' or 'E' with a sign and digits, or nothing. *)
Definition exponent_text (e : Z) (s : bytes) : Prop :=
  (e = 0%Z /\ s = []) \/
  exists c neg sg ds, In c ["e"; "E"]%char /\ sign_text neg sg /\ ds <> [] /\ digit_text ds /\
    e = (if neg then - value_of 0 ds else value_of 0 ds)%Z /\ s = c :: sg ++ ds.

(** [s] is a decimal number: blanks, sign, digits, fraction, exponent; at least
    one digit. The digits are [ip ++ fp], the last one has weight 10^k. *)
Definition number_text (neg : bool) (ds : bytes) (k : Z) (s : bytes) : Prop :=
  exists ws sg ip fp ft e et, Forall (fun c => In c space_chars) ws /\ sign_text neg sg /\ digit_text ip /\
    fraction_text fp ft /\ exponent_text e et /\ ds = ip ++ fp /\ ds <> [] /\ k = (e - Z.of_nat (length fp))%Z /\
    s = ws ++ sg ++ ip ++ ft ++ et.

(** Its value. *)
Definition number_value (neg : bool) (ds : bytes) (k : Z) : R :=
  let v := (IZR (value_of 0 ds) * bpow radix10 k)%R in if neg then (- v)%R else v.

(** Characters that can continue a number. *)
Definition continues : list ascii := digit_chars ++ ["."; "e"; "E"; "x"; "X"]%char.
