(** Vocabulary for the string properties; independent of StrModel's helpers
    except the character classes. *)
From Coq Require Import ZArith List Ascii Bool.
From Verif Require Import Base StrModel.
Import ListNotations.
Open Scope Z_scope.

(** Pieces glued with a delimiter. *)
Fixpoint join (d : ascii) (l : list bytes) : bytes :=
  match l with
  | nil => nil
  | x :: nil => x
  | x :: t => x ++ d :: join d t
  end.

(** The string ends with the character. *)
Definition ends_with (d : ascii) (s : bytes) : Prop := exists s', s = s' ++ [d].

Definition all_space (s : bytes) : Prop := Forall (fun c => isspace c = true) s.
Definition no_space (s : bytes) : Prop := Forall (fun c => isspace c = false) s.

(** [Words s ws]: [ws] is the list of maximal blank-free words of [s]. *)
Inductive Words : bytes -> list bytes -> Prop :=
| Words_nil : forall g, all_space g -> Words g []
| Words_cons : forall g w rest ws,
    all_space g -> w <> [] -> no_space w ->
    (rest = [] \/ exists c t, rest = c :: t /\ isspace c = true) ->
    Words rest ws ->
    Words (g ++ w ++ rest) (w :: ws).

(** Ends in a blank. *)
Definition ends_blank (s : bytes) : Prop := exists s' c, s = s' ++ [c] /\ isspace c = true.

(** ASCII case folding as a relation between characters. *)
Definition same_letter (a b : ascii) : Prop :=
  a = b \/
  (97 <= code a <= 122 /\ code b = code a - 32) \/
  (97 <= code b <= 122 /\ code a = code b - 32).

(** The characters removed by trimming: blank, line feed, carriage return, tab. *)
Definition trim_chars : list ascii := [" "; "010"; "013"; "009"]%char.

(** [t] is [s] without such characters at its ends. *)
Definition trim_of (s t : bytes) : Prop :=
  exists a b, s = a ++ t ++ b /\
    Forall (fun c => In c trim_chars) a /\ Forall (fun c => In c trim_chars) b /\
    (forall c u, In c trim_chars -> t <> c :: u /\ t <> u ++ [c]).

(** White space in the "C" locale, and the decimal digits. *)
Definition space_chars : list ascii := [" "; "009"; "010"; "011"; "012"; "013"]%char.
Definition digit_chars : list ascii := ["0"; "1"; "2"; "3"; "4"; "5"; "6"; "7"; "8"; "9"]%char.

(** Numeric value of a digit string, most significant first. *)
Fixpoint value_of (acc : Z) (s : bytes) : Z :=
  match s with
  | nil => acc
  | c :: t => value_of (acc * 10 + (code c - 48)) t
  end.

(** Canonical decimal text: digits, no leading zero unless it is "0", a minus
    sign exactly for negative numbers. *)
Definition canonical (s : bytes) (z : Z) : Prop :=
  (exists d, s = d /\ 0 <= z /\ d <> [] /\ Forall (fun c => isdigit c = true) d /\
             value_of 0 d = z /\ (hd_error d = Some "0"%char -> d = ["0"%char])) \/
  (exists d, s = "-"%char :: d /\ z < 0 /\ d <> [] /\ Forall (fun c => isdigit c = true) d /\
             value_of 0 d = - z /\ hd_error d <> Some "0"%char).
