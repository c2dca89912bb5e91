(** Vocabulary for GeoTIFF rasters. *)
From Coq Require Import ZArith Reals Ascii String List Bool.
From Flocq Require Import Core BinarySingleNaN.
From Verif Require Import Base StrModel StrSpec MapModel BasicModel FloatModel CoordFloatModel MongoModel RasterModel CellModel CellSpec GdalModel.
Import ListNotations.
Open Scope Z_scope.

(** The options ask for the type, for no type. *)
Definition asks (opts : smap bytes) (t : rdt) : Prop :=
  exists w, lookup opts (str "DATATYPE_OUT") = Some w /\ StringToRasterDataType w = t.
Definition asks_nothing (opts : smap bytes) : Prop := lookup opts (str "DATATYPE_OUT") = None.
(** The projection to be recorded. *)
Definition projection (opts : smap bytes) : bytes := match lookup opts (str "SRS") with Some p => p | None => [] end.

(** GDAL has the type: 64-bit integers came with version 3.5. *)
Definition available (g35 : bool) (t : rdt) : Prop :=
  t <> RDT_Unknown /\ (t = RDT_UInt64 \/ t = RDT_Int64 -> g35 = true).

(** The cell counts as NoData. *)
Definition is_nodata (nd : f64) (v : num) : Prop := FloatEqual (as_double v) nd = true.
(** The NoData value does not fit the integer type, comparing doubles. *)
Definition outside (t : rdt) (nd : f64) : Prop := flt nd (of_int (least t)) = true \/ flt (of_int (most t)) nd = true.
(** What then takes its place: the end of the range that is the least useful. *)
Definition substitute (t : rdt) : Z := match int_kind t with Some (_, true) => least t | _ => most t end.
(** Cells that the substitute replaces. *)
Definition replaced (t : rdt) (nd : f64) (v : num) : Prop := is_nodata nd v /\ outside t nd.

(** The cell of a file as a reader who knows of the option PIXELTYPE sees it. *)
Definition shown (f : tif) (i : nat) : option num :=
  match nth_error (f_cells f) i with
  | Some (VI z) => Some (VI (if f_signed f && (128 <=? z) then z - 256 else z))
  | o => o
  end.

(** The band has the type [t]; signed bytes are either a type of their own or
    bytes with the option. *)
Definition band_type (f : tif) (t : rdt) : Prop :=
  match t with
  | RDT_Unknown => False
  | RDT_UInt8 => f_type f = GDT_Byte /\ f_signed f = false
  | RDT_Int8 => f_type f = GDT_Int8 /\ f_signed f = false \/ f_type f = GDT_Byte /\ f_signed f = true
  | RDT_UInt16 => f_type f = GDT_UInt16 /\ f_signed f = false
  | RDT_Int16 => f_type f = GDT_Int16 /\ f_signed f = false
  | RDT_UInt32 => f_type f = GDT_UInt32 /\ f_signed f = false
  | RDT_Int32 => f_type f = GDT_Int32 /\ f_signed f = false
  | RDT_UInt64 => f_type f = GDT_UInt64 /\ f_signed f = false
  | RDT_Int64 => f_type f = GDT_Int64 /\ f_signed f = false
  | RDT_Float => f_type f = GDT_Float32 /\ f_signed f = false
  | RDT_Double => f_type f = GDT_Float64 /\ f_signed f = false
  end.

(** The cells of the file are [vs]. *)
Definition file_shows (f : tif) (rows cols : Z) (vs : list num) : Prop :=
  f_rows f = rows /\ f_cols f = cols /\ length (f_cells f) = length vs /\ forall i, shown f i = nth_error vs i.

(** Real numbers a floating cell stands for, and the integers they are cut to. *)
Definition floating_type (t : rdt) : Prop := t = RDT_Float \/ t = RDT_Double.

(** What ComputeRasterMinMax finds: the least and the greatest cell; cells holding
    the NoData value need not count. *)
Definition minmax_ok (f : tif) (m : option (f64 * f64)) : Prop :=
  exists lo hi, m = Some (of_int lo, of_int hi) /\
    (exists i, shown f i = Some (VI lo)) /\ (exists i, shown f i = Some (VI hi)) /\
    forall i z, shown f i = Some (VI z) ->
      lo <= z <= hi \/ exists nd, f_nodata f = Some nd /\ is_finite nd = true /\ B2R nd = IZR z.

(** The [m]-fold of [2^e]. *)
Definition multiple (e m : Z) (x : f64) : Prop := is_finite x = true /\ B2R x = (IZR m * bpow radix2 e)%R.
