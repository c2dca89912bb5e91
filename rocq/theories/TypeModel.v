(** Model of the default NoData values (src/data_raster.cpp) and of their
    conversion to the cell type (src/data_raster.hpp:2034). Proof-free. *)
From Coq Require Import ZArith Bool List.
From Flocq Require Import BinarySingleNaN.
From Verif Require Import Base BasicModel FloatModel.
Open Scope Z_scope.

(** FLT_MAX is (2^24 - 1) * 2^104; basic.h:250 MISSINGFLOAT. *)
Definition MISSINGFLOAT : f64 := Bopp (binary_normalize 53 1024 prec_gt_0_53 prec_lt_53 mode_NE (2 ^ 24 - 1) 104 false).

(** data_raster.cpp:62-77 DefaultNoDataByType: the value returned as double. *)
Definition DefaultNoDataByType (t : rdt) : f64 :=
  match t with
  | RDT_Unknown => of_int (-9999)
  | RDT_UInt8 => of_int 255
  | RDT_Int8 => of_int (-128)
  | RDT_UInt16 => of_int 65535
  | RDT_Int16 => of_int (-32768)
  | RDT_UInt32 => of_int 4294967295
  | RDT_Int32 => of_int (-2147483648)
  | RDT_UInt64 => of_int 18446744073709551615
  | RDT_Int64 => of_int (-9223372036854775808)
  | RDT_Float | RDT_Double => MISSINGFLOAT
  end.

(** Ranges of the integer cell types. The types of data_raster.hpp:121-133. *)
Definition int_range (t : rdt) : option (Z * Z) :=
  match t with
  | RDT_UInt8 => Some (0, 255) | RDT_Int8 => Some (-128, 127)
  | RDT_UInt16 => Some (0, 65535) | RDT_Int16 => Some (-32768, 32767)
  | RDT_UInt32 => Some (0, 4294967295) | RDT_Int32 => Some (-2147483648, 2147483647)
  | RDT_UInt64 => Some (0, 18446744073709551615)
  | RDT_Int64 => Some (-9223372036854775808, 9223372036854775807)
  | RDT_Unknown | RDT_Float | RDT_Double => None
  end.

(** Conversion of a double to an integer cell type: the fraction is dropped;
    undefined when the result is out of range or the value is not finite.
    data_raster.hpp:2034. *)
Definition cast_int (lo hi : Z) (x : f64) : outcome Z :=
  if is_finite x then let z := Btrunc x in if (lo <=? z) && (z <=? hi) then Ok z else UB else UB.
