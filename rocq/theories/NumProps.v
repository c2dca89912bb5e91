(** Properties of numbers as text. *)
From Coq Require Import ZArith Reals Ascii String List Bool.
From Flocq Require Import Core BinarySingleNaN.
From Verif Require Import Base StrModel StrSpec FloatModel NumModel NumSpec NumProofs.
Import ListNotations.

(** ** C75 *)
(** A decimal number is accepted, and the result is the double nearest to it. *)
Theorem C75_number : forall neg ds k s, number_text neg ds k s ->
  exists x, IsDouble f64 strtod s = (x, true) /\ double_of neg (number_value neg ds k) x.
Proof. exact IsDouble_number. Qed.
Print Assumptions C75_number.

(** The nearest double is one particular double. *)
Theorem C75_unique : forall s y a b, double_of s y a -> double_of s y b -> a = b.
Proof. exact double_of_unique. Qed.
Print Assumptions C75_unique.

(** A 32-bit (or any up to 2^53) integer in decimal reads as itself. *)
Theorem C75_integer : forall z, (Z.abs z <= 2 ^ 53)%Z -> IsDouble f64 strtod (itoa z) = (of_int z, true).
Proof. exact IsDouble_itoa. Qed.
Print Assumptions C75_integer.

(** Something behind the number makes the text no number. *)
Theorem C75_junk : forall neg ds k s c r, number_text neg ds k s -> ~ In c continues -> snd (IsDouble f64 strtod (s ++ c :: r)) = false.
Proof. exact IsDouble_junk. Qed.
Print Assumptions C75_junk.

(** The empty text is taken for a number: zero. *)
Theorem C75_empty_refuted : exists x, IsDouble f64 strtod [] = (x, true).
Proof. eexists. reflexivity. Qed.
Print Assumptions C75_empty_refuted.

Example C75_ex : (let (x, ok) := IsDouble f64 strtod (str " -1.50e2") in (FloatEqual x (of_int (-150)), ok)) = (true, true) /\
                 snd (IsDouble f64 strtod (str "12abc")) = false.
Proof. split; vm_compute; reflexivity. Qed.
