(** Vocabulary for texts of doubles and for wide strings. *)
From Coq Require Import ZArith Reals Ascii List Bool.
From Flocq Require Import Core BinarySingleNaN.
From Verif Require Import Base StrModel StrSpec FloatModel NumSpec.
Import ListNotations.

(** A real number rounded to whole millionths, to nearest, ties to even. *)
Definition millionths (y : R) : R := round radix10 (FIX_exp (-6)) ZnearestE y.

(** [s] is a decimal number in the plainest form: a minus sign or none, the
    digits [ip] without needless zeros in front, and, if there is a fraction, a
    point and at most six digits [fp] without zeros at the end. *)
Definition plain_text (neg : bool) (ip fp s : bytes) : Prop :=
  ip <> [] /\ digit_text ip /\ (hd_error ip = Some "0"%char -> ip = ["0"%char]) /\
  digit_text fp /\ (length fp <= 6)%nat /\ (forall t, fp <> t ++ ["0"%char]) /\
  s = (if neg then ["-"%char] else []) ++ ip ++ match fp with [] => [] | _ => "."%char :: fp end.

(** Its value. *)
Definition plain_value (neg : bool) (ip fp : bytes) : R :=
  number_value neg (ip ++ fp) (- Z.of_nat (length fp)).

(** ** Encodings of wide characters *)

(** The two directions of an encoding without shift states: a character other
    than NUL has a non-empty encoding without NUL, or none, and is recognised
    whatever follows; what is recognised is the encoding of the character. *)
Record encoding (enc : Z -> option bytes) (dec1 : bytes -> option (Z * nat)) : Prop := {
  enc_some : forall c b, c <> 0%Z -> enc c = Some b -> b <> [] /\ ~ In "000"%char b;
  enc_dec : forall c b r, c <> 0%Z -> enc c = Some b -> dec1 (b ++ r) = Some (c, length b);
  dec_enc : forall a s c k, a <> "000"%char -> dec1 (a :: s) = Some (c, k) ->
    c <> 0%Z /\ (1 <= k <= S (length s))%nat /\ enc c = Some (firstn k (a :: s)) }.

(** [s] encodes [w], character by character. *)
Inductive encodes (enc : Z -> option bytes) : list Z -> bytes -> Prop :=
| encodes_nil : encodes enc [] []
| encodes_cons : forall c b w s, enc c = Some b -> encodes enc w s -> encodes enc (c :: w) (b ++ s).

(** A byte text that starts with encoded characters and then goes on with
    something that is no character. *)
Definition undecodable (enc : Z -> option bytes) (dec1 : bytes -> option (Z * nat)) (s : bytes) : Prop :=
  exists w s1 a s2, encodes enc w s1 /\ s = s1 ++ a :: s2 /\ dec1 (a :: s2) = None.

(** The characters of an ASCII text as wide characters. *)
Definition ascii_text (s : bytes) : Prop := Forall (fun c => (code c < 128)%Z) s.
Definition widen (s : bytes) : list Z := map code s.
