(** Vocabulary for C++ types. *)
From Coq Require Import ZArith Bool List.
From Verif Require Import CTypeModel.
Import ListNotations.
Open Scope Z_scope.

(** Width and sign of the standard integer types (x86-64 Linux; char is signed). *)
Definition width (t : ctype) : option (Z * bool) :=
  match t with
  | C_char | C_schar => Some (8, true) | C_uchar => Some (8, false)
  | C_short => Some (16, true) | C_ushort => Some (16, false)
  | C_int => Some (32, true) | C_uint => Some (32, false)
  | C_long | C_llong => Some (64, true) | C_ulong | C_ullong => Some (64, false)
  | _ => None
  end.
(** The values of an integer type with this width and sign (two's complement). *)
Definition least (w : Z * bool) : Z := if snd w then - 2 ^ (fst w - 1) else 0.
Definition most (w : Z * bool) : Z := if snd w then 2 ^ (fst w - 1) - 1 else 2 ^ fst w - 1.
