(** Text of a double (ftoa, ftow) and wide strings (wtoa, atow, itow, IsInt and
    the like on wstring): src/utils_string.cpp, GCC branches, 64-bit Linux
    ([wchar_t] has 32 bits, [vint] 64). Proof-free. *)
From Coq Require Import ZArith Ascii String List Bool.
From Flocq Require Import BinarySingleNaN.
From Verif Require Import Base StrModel FloatModel NumModel.
Import ListNotations.
Open Scope Z_scope.

(** ** ftoa *)

(** At least six digits ("%06d"). Part of snprintf "%f", utils_string.cpp:141. *)
Definition pad6 (z : Z) : bytes := repeat "0"%char (6 - length (dec z)) ++ dec z.

(** q millionths in decimal. Part of snprintf "%f", utils_string.cpp:141. *)
Definition fix6 (q : Z) : bytes := dec (q / 1000000) ++ "."%char :: pad6 (q mod 1000000).

(** What snprintf "%f" prints in the "C" locale, correctly rounded (glibc, ties
    to even on the exact value). A NaN prints without sign. utils_string.cpp:141. *)
Definition f6 (x : f64) : bytes :=
  match x with
  | B754_zero s => (if s then ["-"%char] else []) ++ fix6 0
  | B754_infinity s => if s then str "-inf" else str "inf"
  | B754_nan => str "nan"
  | B754_finite s m e _ => let (n, d) := frac2 m e in (if s then ["-"%char] else []) ++ fix6 (scaled n d 6)
  end.

(** The loop [while (zero[-1] == '0') *--zero = '\0'] on the text read
    backwards; running below the buffer is undefined. utils_string.cpp:145-147. *)
Fixpoint back0 (r : bytes) : outcome bytes :=
  match r with
  | c :: t => if ascii_dec c "0" then back0 t else Ok r
  | [] => UB
  end.

Local Open Scope outcome_scope.

(** utils_string.cpp:139-149 _gcvt_s: the text left in a buffer of [size]
    characters ([size] > 0; [numberOfDigits] is not used by the code). *)
Definition gcvt_s (size : nat) (x : f64) : outcome bytes :=
  let b := firstn (size - 1) (f6 x) in
  if existsb (fun c => if ascii_dec c "." then true else false) b then
    let* r := back0 (rev b) in
    match r with
    | c :: t => if ascii_dec c "." then Ok (rev t) else Ok (rev r)
    | [] => UB
    end
  else Ok b.

(** utils_string.cpp:200-208 ftoa; [buffer[len - 1]] of an empty text is undefined. *)
Definition ftoa (x : f64) : outcome bytes :=
  let* b := gcvt_s 320 x in
  match rev b with
  | c :: t => if ascii_dec c "." then Ok (rev t) else Ok b
  | [] => UB
  end.

(** ** Wide strings *)

(** A [std::wstring]: the codes of its characters. For utils_string.cpp:210-248. *)
Definition wtext := list Z.

(** What [c_str()] shows to the C library: up to the first NUL.
    For utils_string.cpp:223, 226. *)
Fixpoint cwide (w : wtext) : wtext :=
  match w with c :: t => if c =? 0 then [] else c :: cwide t | [] => [] end.
(** For utils_string.cpp:241, 244. *)
Fixpoint cbytes (s : bytes) : bytes :=
  match s with c :: t => if ascii_dec c "000" then [] else c :: cbytes t | [] => [] end.

(** [string s = buffer] / [wstring s = buffer]: up to the first NUL, which must
    be inside the buffer. utils_string.cpp:227, 245. *)
Fixpoint to_string {A} (is0 : A -> bool) (b : list A) : outcome (list A) :=
  match b with
  | c :: t => if is0 c then Ok [] else let* r := to_string is0 t in Ok (c :: r)
  | [] => UB
  end.

Section Locale.
(** Encoding of one wide character in the current locale; [None]: it has none.
    For utils_string.cpp:218. *)
Variable enc : Z -> option bytes.
(** First character of a byte text: its code and its bytes; [None]: not a
    character. Encodings with shift states are not modelled. For utils_string.cpp:236. *)
Variable dec1 : bytes -> option (Z * nat).

(** [wcstombs(dst, w, n)]: the bytes stored, at most [n] and only whole
    characters, and [false] when a character without encoding was met
    (the return value is then -1). utils_string.cpp:218. *)
Fixpoint wcstombs (n : Z) (w : wtext) : bytes * bool :=
  match w with
  | [] => ([], true)
  | c :: t =>
      match enc c with
      | None => ([], false)
      | Some b => if Z.of_nat (length b) <=? n
                  then let (r, ok) := wcstombs (n - Z.of_nat (length b)) t in (b ++ r, ok)
                  else ([], true)
      end
  end.

(** [wcstombs(NULL, w, _)]: the length; [None] stands for -1. utils_string.cpp:218. *)
Fixpoint wcs_length (w : wtext) : option Z :=
  match w with
  | [] => Some 0
  | c :: t => match enc c, wcs_length t with Some b, Some n => Some (Z.of_nat (length b) + n) | _, _ => None end
  end.

(** [chars - 1] as a [size_t]. utils_string.cpp:218, 236. *)
Definition limit (chars : Z) : Z := (chars - 1) mod 18446744073709551616.

(** utils_string.cpp:222-230 wtoa, with 214-220 _wtoa: [-1 + 1] characters are
    allocated when the text cannot be converted. *)
Definition wtoa (w : wtext) : outcome bytes :=
  let len := match wcs_length (cwide w) with Some n => n + 1 | None => 0 end in
  let (put, _) := wcstombs (limit len) (cwide w) in
  if len <? Z.of_nat (length put) then UB
  else to_string (fun c => if ascii_dec c "000" then true else false) (put ++ repeat "000"%char (Z.to_nat len - length put)).

(** [mbstowcs(dst, a, n)]: the characters stored, at most [n]. [fuel]: the
    number of bytes. utils_string.cpp:236. *)
Fixpoint mbstowcs (fuel : nat) (n : Z) (s : bytes) : wtext * bool :=
  match fuel, s with
  | _, [] => ([], true)
  | O, _ => ([], true)
  | S f, _ => if n <=? 0 then ([], true)
              else match dec1 s with
                   | None => ([], false)
                   | Some (c, k) => let (r, ok) := mbstowcs f (n - 1) (skipn k s) in (c :: r, ok)
                   end
  end.

(** [mbstowcs(NULL, a, _)]: the number of characters; [None] stands for -1.
    utils_string.cpp:236. *)
Fixpoint mbs_length (fuel : nat) (s : bytes) : option Z :=
  match fuel, s with
  | _, [] => Some 0
  | O, _ => Some 0
  | S f, _ => match dec1 s with
              | None => None
              | Some (c, k) => match mbs_length f (skipn k s) with Some n => Some (n + 1) | None => None end
              end
  end.

(** utils_string.cpp:240-248 atow, with 232-238 _atow. *)
Definition atow (s : bytes) : outcome wtext :=
  let a := cbytes s in
  let len := match mbs_length (length a) a with Some n => n + 1 | None => 0 end in
  let (put, _) := mbstowcs (length a) (limit len) a in
  if len <? Z.of_nat (length put) then UB
  else to_string (fun c => c =? 0) (put ++ repeat 0 (Z.to_nat len - length put)).

(** utils_string.cpp:210-212 ftow. *)
Definition ftow (x : f64) : outcome wtext := let* s := ftoa x in atow s.
End Locale.

(** The "C" locale, in which a program starts: the 128 ASCII characters. (The
    code never calls setlocale.) For utils_string.cpp:218, 236. *)
Definition ascii_enc (c : Z) : option bytes :=
  if (0 <=? c) && (c <? 128) then Some [ascii_of_nat (Z.to_nat c)] else None.
(** For utils_string.cpp:236. *)
Definition ascii_dec1 (s : bytes) : option (Z * nat) :=
  match s with c :: _ => if code c <? 128 then Some (code c, 1%nat) else None | [] => None end.

(** ** Numbers in wide strings *)

(** utils_string.cpp:158-162 itow, 170-174 i64tow, 182-186 utow, 194-198 u64tow. *)
Definition itow (z : Z) : wtext := map code (itoa z).
(** utils_string.cpp:182-186 utow, 194-198 u64tow, for z >= 0. *)
Definition utow (z : Z) : wtext := map code (utoa z).

(** Wide characters as [wcstol] and [wcstod] see them in the "C" locale: beyond
    ASCII none is a blank, a sign, a digit or a letter.
    For utils_string.cpp:257-326. *)
Definition narrow (c : Z) : ascii := if (0 <=? c) && (c <? 128) then ascii_of_nat (Z.to_nat c) else "255"%char.

(** Equality of wide strings. For utils_string.cpp:260. *)
Definition weqb (a b : wtext) : bool := if list_eq_dec Z.eq_dec a b then true else false.

(** utils_string.cpp:257-262 IsInt(wstring). *)
Definition IsIntW (w : wtext) : Z * bool :=
  let (v, r) := strtol (map narrow w) in
  let result := wrap32 v in
  (result, match r with nil => true | _ => false end && weqb (itow result) w).

(** utils_string.cpp:271-276 IsInt64(wstring). *)
Definition IsInt64W (w : wtext) : Z * bool :=
  let (v, r) := strtol (map narrow w) in
  (v, match r with nil => true | _ => false end && weqb (itow v) w).

(** utils_string.cpp:285-290 IsUInt(wstring): the number goes through a signed
    variable and back. *)
Definition IsUIntW (w : wtext) : Z * bool :=
  let (v, r) := strtoul (map narrow w) in
  let result := wrap64 v in
  (result mod 18446744073709551616,
   match r with nil => true | _ => false end && weqb (utow (result mod 18446744073709551616)) w).

(** utils_string.cpp:299-304 IsUInt64(wstring). *)
Definition IsUInt64W (w : wtext) : Z * bool :=
  let (v, r) := strtoul (map narrow w) in
  (v, match r with nil => true | _ => false end && weqb (utow v) w).

(** utils_string.cpp:313-318 IsDouble(wstring). *)
Definition IsDoubleW (w : wtext) : f64 * bool :=
  let (v, n) := strtod (map narrow w) in (v, Nat.eqb n (length w)).
