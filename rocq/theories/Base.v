(** Common vocabulary of the model (no /repo counterpart): outcomes, machine
    integer ranges, byte strings. *)
From Coq Require Import ZArith Ascii String List Bool.
Import ListNotations.
Open Scope Z_scope.

(** Result of running a piece of C++: a value, undefined behaviour (null or
    out-of-bounds access, double free, ...), or an escaping C++ exception. *)
Inductive outcome (A : Type) : Type :=
| Ok (a : A)
| UB
| Throw.
Arguments Ok {A} a.
Arguments UB {A}.
Arguments Throw {A}.

Definition obind {A B} (m : outcome A) (k : A -> outcome B) : outcome B :=
  match m with Ok a => k a | UB => UB | Throw => Throw end.

Declare Scope outcome_scope.
Delimit Scope outcome_scope with outcome.
Notation "'let*' x ':=' m 'in' k" := (obind m (fun x => k))
  (at level 200, x pattern, m at level 100, k at level 200, right associativity) : outcome_scope.

(** 32-bit [int] and 64-bit [long]/[vint] ranges. *)
Definition INT_MIN : Z := -2147483648.
Definition INT_MAX : Z := 2147483647.
Definition UINT_MAX : Z := 4294967295.
Definition LONG_MIN : Z := -9223372036854775808.
Definition LONG_MAX : Z := 9223372036854775807.
Definition ULONG_MAX : Z := 18446744073709551615.

Definition in_int (z : Z) : Prop := INT_MIN <= z <= INT_MAX.
Definition in_long (z : Z) : Prop := LONG_MIN <= z <= LONG_MAX.
Definition in_intb (z : Z) : bool := (INT_MIN <=? z) && (z <=? INT_MAX).

(** [static_cast<int>] from a wider integer: two's complement wrap (what every
    supported compiler does; guaranteed since C++20). *)
Definition wrap32 (z : Z) : Z := (z + 2147483648) mod 4294967296 - 2147483648.
Definition wrap64 (z : Z) : Z :=
  (z + 9223372036854775808) mod 18446744073709551616 - 9223372036854775808.

(** A [std::string] is its list of bytes. *)
Definition bytes := list ascii.
Definition str (s : string) : bytes := list_ascii_of_string s.

Definition beqb (a b : bytes) : bool :=
  if list_eq_dec ascii_dec a b then true else false.

(** Checked array read [a[i]]: out of bounds is undefined behaviour. *)
Definition aget {A} (a : list A) (i : Z) : outcome A :=
  if i <? 0 then UB
  else match nth_error a (Z.to_nat i) with Some v => Ok v | None => UB end.

Fixpoint upd {A} (a : list A) (n : nat) (v : A) : list A :=
  match a, n with
  | nil, _ => nil
  | _ :: t, O => v :: t
  | h :: t, S n' => h :: upd t n' v
  end.

(** Checked array write [a[i] = v]. *)
Definition aset {A} (a : list A) (i : Z) (v : A) : outcome (list A) :=
  if i <? 0 then UB
  else if (Z.to_nat i <? length a)%nat then Ok (upd a (Z.to_nat i) v) else UB.
