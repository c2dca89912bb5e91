(** Vocabulary for cell values of the ten data types. *)
From Coq Require Import ZArith Reals List Bool.
From Flocq Require Import Core BinarySingleNaN.
From Verif Require Import Base BasicModel FloatModel MongoModel CellModel.
Import ListNotations.
Open Scope Z_scope.

(** The integer types: width and signedness. *)
Definition int_kind (t : rdt) : option (Z * bool) :=
  match t with
  | RDT_UInt8 => Some (8, false) | RDT_Int8 => Some (8, true)
  | RDT_UInt16 => Some (16, false) | RDT_Int16 => Some (16, true)
  | RDT_UInt32 => Some (32, false) | RDT_Int32 => Some (32, true)
  | RDT_UInt64 => Some (64, false) | RDT_Int64 => Some (64, true)
  | _ => None
  end.
Definition integer_type (t : rdt) : Prop := int_kind t <> None.
(** The integers of a type. *)
Definition least (t : rdt) : Z := match int_kind t with Some (w, true) => - 2 ^ (w - 1) | _ => 0 end.
Definition most (t : rdt) : Z :=
  match int_kind t with Some (w, true) => 2 ^ (w - 1) - 1 | Some (w, false) => 2 ^ w - 1 | None => 0 end.
Definition fits (t : rdt) (z : Z) : Prop := least t <= z <= most t.

(** The value is one of the type. *)
Definition of_type (t : rdt) (v : num) : Prop :=
  match v with
  | VI z => integer_type t /\ fits t z
  | VF _ => t = RDT_Float
  | VD _ => t = RDT_Double
  end.

(** The real number a value stands for; [None] for infinities and NaN. *)
Definition real_of (v : num) : option R :=
  match v with
  | VI z => Some (IZR z)
  | VF x => if is_finite x then Some (B2R x) else None
  | VD x => if is_finite x then Some (B2R x) else None
  end.

(** 32- and 64-bit unsigned values compared with the bounds of a signed type
    that is not wider. *)
Definition mixed (s t : rdt) : Prop :=
  exists w w', int_kind s = Some (w, false) /\ 32 <= w /\ int_kind t = Some (w', true) /\ w' <= w.
