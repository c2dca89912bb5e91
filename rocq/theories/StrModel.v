(** Model of src/utils_string.{h,cpp} (narrow-character functions). The "C"
    locale is assumed. Proof-free. *)
From Coq Require Import ZArith Ascii String List Bool.
From Verif Require Import Base.
Import ListNotations.
Open Scope Z_scope.

(** A [char] as a number, e.g. utils_string.cpp:18. *)
Definition code (c : ascii) : Z := Z.of_nat (nat_of_ascii c).

(** [isspace] in the "C" locale: blank, \t \n \v \f \r. Used by
    [istringstream >> string] and [strtol]. utils_string.cpp:52, 252. *)
Definition isspace (c : ascii) : bool :=
  (code c =? 32) || ((9 <=? code c) && (code c <=? 13)).

(** The character set " \n\r\t" of utils_string.cpp:24,26,74,75. *)
Definition in_trim_set (c : ascii) : bool :=
  (code c =? 32) || (code c =? 10) || (code c =? 13) || (code c =? 9).

(** A decimal digit, for utils_string.cpp:252 and db_mongoc.h:201. *)
Definition isdigit (c : ascii) : bool := (48 <=? code c) && (code c <=? 57).

(** [toupper] in the "C" locale. Bytes >= 128 are left alone (glibc behaviour
    for the negative [char] values passed at utils_string.cpp:18). *)
Definition toupper (c : ascii) : ascii :=
  if (97 <=? code c) && (code c <=? 122)
  then ascii_of_nat (nat_of_ascii c - 32) else c.

(** utils_string.cpp:16-20 GetUpper: in-place [toupper] on each char. *)
Definition GetUpper (s : bytes) : bytes := map toupper s.

(** [std::string::find_first_not_of(" \n\r\t")]: index or npos ([None]).
    utils_string.cpp:24. *)
Fixpoint find_first_not (s : bytes) : option nat :=
  match s with
  | nil => None
  | c :: t => if in_trim_set c
              then match find_first_not t with Some n => Some (S n) | None => None end
              else Some O
  end.

(** [std::string::find_last_not_of(" \n\r\t")]. utils_string.cpp:26. *)
Fixpoint find_last_not (s : bytes) : option nat :=
  match s with
  | nil => None
  | c :: t => match find_last_not t with
              | Some n => Some (S n)
              | None => if in_trim_set c then None else Some O
              end
  end.

(** utils_string.cpp:22-33 TrimSpaces: [substr(startpos, endpos-startpos+1)]. *)
Definition TrimSpaces (s : bytes) : bytes :=
  match find_first_not s, find_last_not s with
  | Some a, Some b => firstn (b - a + 1) (skipn a s)
  | _, _ => []
  end.

(** utils_string.cpp:70-76 Trim: [erase(0, n)] with n = npos erases all;
    then [erase(last+1)] where npos + 1 = 0 erases all. *)
Definition Trim (s : bytes) : bytes :=
  match s with
  | nil => s
  | _ => let s1 := match find_first_not s with Some n => skipn n s | None => [] end in
         firstn (match find_last_not s1 with Some n => S n | None => O end) s1
  end.

(** One [getline(iss, field, d)]: characters up to and excluding the next [d]
    (which is consumed), or up to the end of input. utils_string.cpp:39. *)
Fixpoint span_delim (d : ascii) (s : bytes) : bytes * option bytes :=
  match s with
  | nil => (nil, None)
  | c :: t => if ascii_dec c d then (nil, Some t)
              else let (f, r) := span_delim d t in (c :: f, r)
  end.

(** utils_string.cpp:35-45 SplitString(item, delimiter). [getline] fails (and
    the loop ends) iff no character could be extracted because the stream is
    already at its end. [fuel] bounds the number of fields; see
    [SplitString_d] for its value. *)
Fixpoint split_loop (fuel : nat) (d : ascii) (s : bytes) : list bytes :=
  match fuel with
  | O => nil
  | S fuel' =>
      match s with
      | nil => nil
      | _ => match span_delim d s with
             | (f, None) => [f]
             | (f, Some rest) => f :: split_loop fuel' d rest
             end
      end
  end.

(** Each iteration consumes at least one character, so [length] is enough.
    utils_string.cpp:35-45. *)
Definition SplitString_d (s : bytes) (d : ascii) : list bytes :=
  split_loop (length s) d s.

(** State of [iss >> field] (libstdc++ semantics of [operator>>(istream&,
    string&)]): skip whitespace; if the end is reached the extraction fails,
    sets eofbit and leaves [field] unchanged; otherwise [field] receives the
    characters up to the next whitespace, and eofbit is set iff the end of
    input was hit while reading. utils_string.cpp:52, 55. *)
Fixpoint skip_ws (s : bytes) : bytes :=
  match s with
  | nil => nil
  | c :: t => if isspace c then skip_ws t else s
  end.

(** utils_string.cpp:52, 55. *)
Fixpoint span_word (s : bytes) : bytes * bytes :=
  match s with
  | nil => (nil, nil)
  | c :: t => if isspace c then (nil, s)
              else let (w, r) := span_word t in (c :: w, r)
  end.

(** Returns new field, rest of input, eof flag. utils_string.cpp:52, 55. *)
Definition extract (field : bytes) (s : bytes) : bytes * bytes * bool :=
  match skip_ws s with
  | nil => (field, nil, true)
  | s' => let (w, r) := span_word s' in
          (w, r, match r with nil => true | _ => false end)
  end.

(** utils_string.cpp:53-56 the [while (!iss.eof())] loop, followed by line 57. *)
Fixpoint words_loop (fuel : nat) (field : bytes) (s : bytes) (eof : bool) : list bytes :=
  match fuel with
  | O => [field]
  | S fuel' =>
      if eof then [field]
      else let '(f', r', eof') := extract field s in
           field :: words_loop fuel' f' r' eof'
  end.

(** utils_string.cpp:48-59 SplitString(item). *)
Definition SplitString (s : bytes) : list bytes :=
  let '(f, r, eof) := extract [] s in
  words_loop (S (length s)) f r eof.

(** utils_string.cpp:65-68 StringMatch(string, string). *)
Definition StringMatch (a b : bytes) : bool := beqb (GetUpper a) (GetUpper b).

(** Decimal text of a natural number ("%d"/"%lld"/"%u" conversions). [fuel] is
    the number of binary digits + 1, an upper bound of the decimal digits.
    For utils_string.cpp:152-192. *)
Definition digit (z : Z) : ascii := ascii_of_nat (Z.to_nat (48 + z)).

(** For utils_string.cpp:152-192. *)
Fixpoint dec_loop (fuel : nat) (z : Z) (acc : bytes) : bytes :=
  match fuel with
  | O => acc
  | S f => if z <? 10 then digit z :: acc
           else dec_loop f (z / 10) (digit (z mod 10) :: acc)
  end.

(** For utils_string.cpp:152-192. *)
Definition dec (z : Z) : bytes := dec_loop (S (Z.to_nat (Z.log2 z))) z [].

(** utils_string.cpp:152-156 itoa (printf "%lld", CPP_64 branch of ITOA_S,
    basic.h) and 164-168 i64toa. *)
Definition itoa (z : Z) : bytes :=
  if z <? 0 then "-"%char :: dec (- z) else dec z.

(** utils_string.cpp:176-180 utoa / 188-192 u64toa, for z >= 0. *)
Definition utoa (z : Z) : bytes := dec z.

(** Decimal digits prefix: accumulated value and the unread rest.
    Part of strtol, utils_string.cpp:252. *)
Fixpoint digits (acc : Z) (s : bytes) : Z * bytes :=
  match s with
  | nil => (acc, nil)
  | c :: t => if isdigit c then digits (acc * 10 + (code c - 48)) t else (acc, s)
  end.

(** C [strtol]/[strtoll] base 10 as used at utils_string.cpp:252,266: skip
    whitespace, optional sign, digits; saturates to LONG_MIN/LONG_MAX; without
    digits nothing is consumed. Returns the value and the unread rest
    ([endptr]). *)
Definition strtol (s : bytes) : Z * bytes :=
  let s1 := skip_ws s in
  let '(neg, s2) := match s1 with
                    | c :: t => if ascii_dec c "-" then (true, t)
                                else if ascii_dec c "+" then (false, t) else (false, s1)
                    | nil => (false, s1)
                    end in
  match s2 with
  | c :: _ => if isdigit c then
                let (v, r) := digits 0 s2 in
                let v' := if neg then - v else v in
                (Z.max LONG_MIN (Z.min LONG_MAX v'), r)
              else (0, s)
  | nil => (0, s)
  end.

(** utils_string.cpp:250-255 IsInt: returned value and [success]. [endptr ==
    end] is "the unread rest is empty". *)
Definition IsInt (s : bytes) : Z * bool :=
  let (v, r) := strtol s in
  let result := wrap32 v in
  (result, match r with nil => true | _ => false end && beqb (itoa result) s).

(** utils_string.cpp:264-269 IsInt64. *)
Definition IsInt64 (s : bytes) : Z * bool :=
  let (v, r) := strtol s in
  (v, match r with nil => true | _ => false end && beqb (itoa v) s).

(** C [strtoul]/[strtoull] base 10 (utils_string.cpp:280,294): a minus sign
    negates modulo 2^64; overflow saturates to ULONG_MAX. *)
Definition strtoul (s : bytes) : Z * bytes :=
  let s1 := skip_ws s in
  let '(neg, s2) := match s1 with
                    | c :: t => if ascii_dec c "-" then (true, t)
                                else if ascii_dec c "+" then (false, t) else (false, s1)
                    | nil => (false, s1)
                    end in
  match s2 with
  | c :: _ => if isdigit c then
                let (v, r) := digits 0 s2 in
                (if v >? ULONG_MAX then ULONG_MAX
                 else if neg then (- v) mod 18446744073709551616 else v, r)
              else (0, s)
  | nil => (0, s)
  end.

(** utils_string.cpp:278-283 IsUInt and 292-297 IsUInt64 (vuint is 64-bit). *)
Definition IsUInt64 (s : bytes) : Z * bool :=
  let (v, r) := strtoul s in
  (v, match r with nil => true | _ => false end && beqb (utoa v) s).

(** utils_string.h:327-355 ToInt / ToInt64 / ToUInt64: the value, [success]
    discarded. *)
Definition ToInt (s : bytes) : Z := fst (IsInt s).
(** utils_string.h:327-355. *)
Definition ToInt64 (s : bytes) : Z := fst (IsInt64 s).
(** utils_string.h:327-355. *)
Definition ToUInt64 (s : bytes) : Z := fst (IsUInt64 s).

Section Doubles.
(** [strtod] is external: value and number of characters consumed. utils_string.cpp:308. *)
Variable V : Type.
(** utils_string.cpp:308. *)
Variable strtod : bytes -> V * nat.

(** utils_string.cpp:306-311 IsDouble. *)
Definition IsDouble (s : bytes) : V * bool :=
  let (v, n) := strtod s in (v, Nat.eqb n (length s)).

(** utils_string.h:375-380 IsNumber. *)
Definition IsNumber (s : bytes) : bool := snd (IsDouble s).

(** utils_string.h:359-372 SplitStringForValues: [None] when it returns before
    touching [values]; otherwise the new vector and the returned flag.
    [find_first_of("0123456789")] is "has a digit". The cast to the element
    type is folded into [V]. *)
Definition SplitStringForValues (s : bytes) (d : ascii) : option (list V * bool) :=
  match SplitString_d s d with
  | nil => None
  | items =>
      let vals := map (fun it => fst (strtod it)) (filter (existsb isdigit) items) in
      Some (vals, Nat.eqb (length items) (length vals))
  end.
End Doubles.
