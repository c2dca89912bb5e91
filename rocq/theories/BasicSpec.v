(** Vocabulary for the address and data type properties. *)
From Coq Require Import ZArith Ascii String List Bool.
From Verif Require Import Base StrModel StrSpec BasicModel.
Import ListNotations.
Open Scope Z_scope.

Definition number_text (d : bytes) : Prop := d <> [] /\ Forall (fun c => isdigit c = true) d.

(** What a decimal number becomes in an [int] read with %d: numbers from 2^63 on
    are cut to 2^63-1, and the low 32 bits are taken as a signed number. *)
Definition as_int (v : Z) : Z := wrap32 (Z.min LONG_MAX v).

Definition octet_text (d : bytes) : Prop := number_text d /\ 0 <= as_int (value_of 0 d) <= 255.

(** Four numbers separated by dots, then [r]. *)
Definition quad (s d1 d2 d3 d4 r : bytes) : Prop :=
  s = d1 ++ "."%char :: d2 ++ "."%char :: d3 ++ "."%char :: d4 ++ r.

Definition digit_or_dot (c : ascii) : Prop := isdigit c = true \/ c = "."%char.
