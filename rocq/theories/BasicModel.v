(** Model of src/basic.cpp IsIpAddress and of the raster data type names and
    defaults of src/data_raster.cpp. Proof-free. *)
From Coq Require Import ZArith Ascii String List Bool.
From Verif Require Import Base StrModel ScanModel.
Import ListNotations.
Open Scope Z_scope.

(** basic.cpp:54: the format text. *)
Definition ip_fmt : list directive :=
  match parse_fmt None (str "%d.%d.%d.%d") with Some l => l | None => [] end.

(** basic.cpp:50-76 IsIpAddress. [ip] is the text before the terminating NUL. *)
Definition IsIpAddress (ip : bytes) : bool :=
  match sscanf ip_fmt ip with
  | [a; b; c; d] =>
      if (a >? 255) || (b >? 255) || (c >? 255) || (d >? 255) || (a <? 0) || (b <? 0) || (c <? 0) || (d <? 0)
      then false
      else forallb (fun ch => negb (negb (if ascii_dec ch "." then true else false) &&
                                    ((code ch <? 48) || (code ch >? 57)))) ip
  | _ => false
  end.

(** data_raster.hpp RasterDataType (enumerators of data_raster.hpp:118-133). *)
Inductive rdt := RDT_Unknown | RDT_UInt8 | RDT_Int8 | RDT_UInt16 | RDT_Int16 | RDT_UInt32 | RDT_Int32
               | RDT_UInt64 | RDT_Int64 | RDT_Float | RDT_Double.

(** data_raster.cpp:16-30 RasterDataTypeToString (on enumerators). *)
Definition RasterDataTypeToString (t : rdt) : bytes :=
  match t with
  | RDT_Int8 => str "INT8" | RDT_UInt8 => str "UINT8"
  | RDT_UInt16 => str "UINT16" | RDT_Int16 => str "INT16"
  | RDT_UInt32 => str "UINT32" | RDT_Int32 => str "INT32"
  | RDT_UInt64 => str "UINT64" | RDT_Int64 => str "INT64"
  | RDT_Float => str "FLOAT" | RDT_Double => str "DOUBLE"
  | RDT_Unknown => str "Unknown"
  end.

Local Open Scope string_scope.
(** data_raster.cpp:32-46 StringToRasterDataType. *)
Definition StringToRasterDataType (s : bytes) : rdt :=
  let m t := StringMatch s (str t) in
  if m "UCHAR" || m "UINT8" || m "GDT_Byte" then RDT_UInt8
  else if m "CHAR" || m "INT8" || m "GDT_Int8" then RDT_Int8
  else if m "UINT16" || m "GDT_UInt16" then RDT_UInt16
  else if m "INT16" || m "GDT_Int16" then RDT_Int16
  else if m "UINT32" || m "GDT_UInt32" then RDT_UInt32
  else if m "INT32" || m "GDT_Int32" then RDT_Int32
  else if m "UINT64" || m "GDT_UInt64" then RDT_UInt64
  else if m "INT64" || m "GDT_Int64" then RDT_Int64
  else if m "FLOAT" || m "GDT_Float32" then RDT_Float
  else if m "DOUBLE" || m "GDT_Float64" then RDT_Double
  else RDT_Unknown.
Local Close Scope string_scope.
