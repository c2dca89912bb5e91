(** Numbers as text: the C library's [strtod] in the "C" locale and the
    [ostream << double] conversion with precision 6 (printf "%.6g"), on
    binary64, both correctly rounded (glibc, round to nearest even). Used by
    IsDouble (src/utils_string.cpp:306-311), ReadAscFile and the ASC writers
    (src/data_raster.hpp:215-309, 325-346, 3137-3210; src/data_raster.cpp:189-207).
    Proof-free. *)
From Coq Require Import ZArith Ascii String List Bool SpecFloat.
From Flocq Require Import BinarySingleNaN.
From Verif Require Import Base StrModel FloatModel.
Import ListNotations.
Open Scope Z_scope.

(** The double nearest to (-1)^s * p / q (ties to even, overflow to infinity):
    the rounding division of IEEE 754 applied to arbitrary integers.
    Part of strtod, called at utils_string.cpp:308. *)
Definition to_f64 (z : spec_float) : f64 :=
  (if valid_binary 53 1024 z as b return (valid_binary 53 1024 z = b -> f64)
   then fun H => SF2B z H else fun _ => f64_nan) eq_refl.
(** Part of strtod, called at utils_string.cpp:308. *)
Definition nearest (s : bool) (p q : positive) : f64 :=
  let '(m, e, l) := SFdiv_core_binary 53 1024 (Zpos p) 0 (Zpos q) 0 in
  to_f64 (binary_round_aux 53 1024 mode_NE s m e l).

(** The double nearest to (-1)^s * m * 10^e, for m >= 0.
    Part of strtod, called at utils_string.cpp:308. *)
Definition nearest10 (s : bool) (m e : Z) : f64 :=
  match m with
  | Zpos p => if 0 <=? e then nearest s (Z.to_pos (Zpos p * 10 ^ e)) 1
              else nearest s p (Z.to_pos (10 ^ (- e)))
  | _ => B754_zero s
  end.

(** ** strtod *)

(** Digits at the front of a text, and the rest.
    Part of strtod, called at utils_string.cpp:308. *)
Fixpoint span_digits (s : bytes) : bytes * bytes :=
  match s with
  | c :: t => if isdigit c then let (d, r) := span_digits t in (c :: d, r) else ([], s)
  | [] => ([], [])
  end.

(** Value of a digit text. Part of strtod, called at utils_string.cpp:308. *)
Definition dval (s : bytes) : Z := fst (digits 0 s).

(** An optional sign. Part of strtod, called at utils_string.cpp:308. *)
Definition get_sign (s : bytes) : bool * bytes :=
  match s with
  | c :: t => if ascii_dec c "-" then (true, t) else if ascii_dec c "+" then (false, t) else (false, s)
  | [] => (false, [])
  end.

(** The text after a word given in upper case, compared without case.
    Part of strtod, called at utils_string.cpp:308. *)
Fixpoint after (w s : bytes) : option bytes :=
  match w, s with
  | [], _ => Some s
  | a :: w', c :: s' => if ascii_dec (toupper c) a then after w' s' else None
  | _ :: _, [] => None
  end.

(** An exponent part, 'e' or 'p' with at least one digit: its value and the
    rest; 0 and the whole text when there is none.
    Part of strtod, called at utils_string.cpp:308. *)
Definition get_exp (mark : ascii) (s : bytes) : Z * bytes :=
  match s with
  | c :: t =>
      if ascii_dec (toupper c) mark then
        let (neg, u) := get_sign t in
        match span_digits u with
        | ([], _) => (0, s)
        | (d, r) => (if neg then - dval d else dval d, r)
        end
      else (0, s)
  | [] => (0, [])
  end.

(** Hexadecimal digits. Part of strtod, called at utils_string.cpp:308. *)
Definition xval (c : ascii) : option Z :=
  let k := code (toupper c) in
  if isdigit c then Some (k - 48) else if (65 <=? k) && (k <=? 70) then Some (k - 55) else None.
(** Part of strtod, called at utils_string.cpp:308. *)
Fixpoint span_hex (s : bytes) : list Z * bytes :=
  match s with
  | c :: t => match xval c with Some v => let (d, r) := span_hex t in (v :: d, r) | None => ([], s) end
  | [] => ([], [])
  end.

(** Digits with an optional point: before, after, rest.
    Part of strtod, called at utils_string.cpp:308. *)
Definition mantissa {A} (span : bytes -> list A * bytes) (s : bytes) : list A * list A * bytes :=
  let (ip, r) := span s in
  match r with
  | c :: t => if ascii_dec c "." then let (fp, r') := span t in (ip, fp, r') else (ip, [], r)
  | [] => (ip, [], [])
  end.

(** A hexadecimal number behind "0x": value and rest, [None] without digits.
    Part of strtod, called at utils_string.cpp:308. *)
Definition hexadecimal (neg : bool) (s : bytes) : option (f64 * bytes) :=
  let '(ip, fp, r) := mantissa span_hex s in
  match ip ++ fp with
  | [] => None
  | ds => let m := fold_left (fun a d => a * 16 + d) ds 0 in
          let (e, r') := get_exp "P" r in
          Some (match m with
                | Zpos p => binary_normalize 53 1024 prec_gt_0_53 prec_lt_53 mode_NE
                              (if neg then Zneg p else Zpos p) (e - 4 * Z.of_nat (length fp)) neg
                | _ => B754_zero neg
                end, r')
  end.

(** A decimal number: value and rest, [None] without digits.
    Part of strtod, called at utils_string.cpp:308. *)
Definition decimal (neg : bool) (s : bytes) : option (f64 * bytes) :=
  let '(ip, fp, r) := mantissa span_digits s in
  match ip ++ fp with
  | [] => None
  | ds => let (e, r') := get_exp "E" r in
          Some (nearest10 neg (dval ds) (e - Z.of_nat (length fp)), r')
  end.

(** The optional "(...)" after "nan". Part of strtod, called at utils_string.cpp:308. *)
Fixpoint nan_tail (s : bytes) : option bytes :=
  match s with
  | c :: t => if ascii_dec c ")" then Some t
              else if isdigit c || ((65 <=? code (toupper c)) && (code (toupper c) <=? 90)) || (code c =? 95)
              then nan_tail t else None
  | [] => None
  end.

(** [strtod]: the value and the number of characters consumed (0: none). The
    payload and sign of a NaN are not represented. Called at utils_string.cpp:308. *)
Definition strtod (s : bytes) : f64 * nat :=
  let (neg, t) := get_sign (skip_ws s) in
  let used (r : bytes) := (length s - length r)%nat in
  match after (str "INFINITY") t, after (str "INF") t, after (str "NAN") t with
  | Some r, _, _ | None, Some r, _ => (B754_infinity neg, used r)
  | None, None, Some r =>
      (f64_nan, used (match r with
                      | c :: u => if ascii_dec c "(" then match nan_tail u with Some r' => r' | None => r end else r
                      | [] => r end))
  | None, None, None =>
      let d := match after (str "0X") t with
               | Some u => match hexadecimal neg u with Some v => Some v | None => decimal neg t end
               | None => decimal neg t
               end in
      match d with Some (v, r) => (v, used r) | None => (f64_zero, O) end
  end.

(** ** printf "%.6g" *)

(** Quotient rounded to nearest, ties to even (n >= 0, d > 0).
    Part of the output of a double, data_raster.cpp:199-204. *)
Definition round_div (n d : Z) : Z :=
  let (q, r) := Z.div_eucl n d in
  match 2 * r ?= d with Lt => q | Gt => q + 1 | Eq => if Z.even q then q else q + 1 end.

(** m * 2^e as a fraction. Part of the output of a double, data_raster.cpp:199-204. *)
Definition frac2 (m : positive) (e : Z) : Z * Z :=
  if 0 <=? e then (Zpos m * 2 ^ e, 1) else (Zpos m, 2 ^ (- e)).

(** n / d * 10^k rounded to an integer.
    Part of the output of a double, data_raster.cpp:199-204. *)
Definition scaled (n d k : Z) : Z :=
  if 0 <=? k then round_div (n * 10 ^ k) d else round_div n (d * 10 ^ (- k)).

(** The k with 10^k <= n/d < 10^(k+1).
    Part of the output of a double, data_raster.cpp:199-204. *)
Definition exp10 (n d : Z) : Z :=
  if d <=? n then Z.of_nat (length (dec (n / d))) - 1
  else - Z.of_nat (length (dec ((d + n - 1) / n - 1))).

(** Six significant digits q and the exponent k of the first one: the value is
    about q * 10^(k-5), 10^5 <= q < 10^6.
    Part of the output of a double, data_raster.cpp:199-204. *)
Definition six (m : positive) (e : Z) : Z * Z :=
  let (n, d) := frac2 m e in
  let k := exp10 n d in
  let q := scaled n d (5 - k) in
  if q =? 1000000 then (100000, k + 1) else (q, k).

(** Without the trailing zeros. Part of the output of a double, data_raster.cpp:199-204. *)
Fixpoint strip0 (s : bytes) : bytes :=
  match s with
  | [] => []
  | c :: t => match strip0 t with
              | [] => if ascii_dec c "0" then [] else [c]
              | t' => c :: t'
              end
  end.

(** A point in front of a non-empty fraction.
    Part of the output of a double, data_raster.cpp:199-204. *)
Definition point (fp : bytes) : bytes := match fp with [] => [] | _ => "."%char :: fp end.

(** Exponent of at least two digits, with sign.
    Part of the output of a double, data_raster.cpp:199-204. *)
Definition exp_text (k : Z) : bytes :=
  "e"%char :: (if k <? 0 then "-"%char else "+"%char) ::
  (if Z.abs k <? 10 then "0"%char :: dec (Z.abs k) else dec (Z.abs k)).

(** printf "%.6g" of six digits q at exponent k.
    Part of the output of a double, data_raster.cpp:199-204. *)
Definition g6_text (q k : Z) : bytes :=
  let ds := dec q in
  if (k <? -4) || (5 <? k) then firstn 1 ds ++ point (strip0 (skipn 1 ds)) ++ exp_text k
  else if k <? 0 then "0"%char :: point (repeat "0"%char (Z.to_nat (- k - 1)) ++ strip0 ds)
  else firstn (Z.to_nat (k + 1)) ds ++ point (strip0 (skipn (Z.to_nat (k + 1)) ds)).

(** [ostream << double] with precision 6. A NaN prints without sign.
    As at data_raster.cpp:199-204. *)
Definition g6 (x : f64) : bytes :=
  match x with
  | B754_zero s => (if s then str "-0" else str "0")
  | B754_infinity s => (if s then str "-inf" else str "inf")
  | B754_nan => str "nan"
  | B754_finite s m e _ => let (q, k) := six m e in (if s then ["-"%char] else []) ++ g6_text q k
  end.
