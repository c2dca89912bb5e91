(** The raster data types of C++ types (src/data_raster.cpp), on 64-bit Linux. Proof-free. *)
From Coq Require Import ZArith Bool List.
From Verif Require Import Base BasicModel FloatModel TypeModel.
Open Scope Z_scope.

(** The arithmetic types of C++, which are different types though some have the same values.
    What [typeid] tells apart at data_raster.cpp:49-58. *)
Inductive ctype := C_bool | C_char | C_schar | C_uchar | C_short | C_ushort | C_int | C_uint
  | C_long | C_ulong | C_llong | C_ullong | C_wchar | C_char16 | C_char32 | C_float | C_double | C_ldouble.
(** basic.h:208-215 with <cstdint> of 64-bit Linux *)
Definition vint8_t := C_schar.
(** basic.h:209 *)
Definition vuint8_t := C_uchar.
(** basic.h:210 *)
Definition vint16_t := C_short.
(** basic.h:211 *)
Definition vuint16_t := C_ushort.
(** basic.h:212 *)
Definition vint32_t := C_int.
(** basic.h:213 *)
Definition vuint32_t := C_uint.
(** basic.h:214 *)
Definition vint64_t := C_long.
(** basic.h:215 *)
Definition vuint64_t := C_ulong.
(** The comparison of [type_info] at data_raster.cpp:49-58 *)
Definition same_type (a b : ctype) : bool := if (ltac:(decide equality) : {a = b} + {a <> b}) then true else false.
(** data_raster.cpp:48-60 *)
Definition TypeToRasterDataType (t : ctype) : rdt :=
  if same_type t C_uchar || same_type t vuint8_t then RDT_UInt8
  else if same_type t C_char || same_type t vint8_t then RDT_Int8
  else if same_type t vuint16_t then RDT_UInt16
  else if same_type t vint16_t then RDT_Int16
  else if same_type t vuint32_t then RDT_UInt32
  else if same_type t vint32_t then RDT_Int32
  else if same_type t vuint64_t then RDT_UInt64
  else if same_type t vint64_t then RDT_Int64
  else if same_type t C_float then RDT_Float
  else if same_type t C_double then RDT_Double
  else RDT_Unknown.
(** data_raster.hpp:2034: the NoData value of a new raster with cells of an integer type with
    the range lo..hi *)
Definition new_nodata (t : ctype) (lo hi : Z) : outcome Z := cast_int lo hi (DefaultNoDataByType (TypeToRasterDataType t)).
