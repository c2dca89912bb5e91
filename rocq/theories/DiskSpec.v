(** Vocabulary for files by their names. *)
From Coq Require Import ZArith Reals Ascii String List Bool.
From Flocq Require Import Core BinarySingleNaN.
From Verif Require Import Base StrModel StrSpec MapModel FsModel FsSpec FloatModel RasterModel RasterSpec AscSpec CoordFloatModel CellModel LayersModel LayersSpec.
Import ListNotations.
Open Scope Z_scope.

(** Suffixes, in capitals or not. *)
Definition asc_suffix (suf : bytes) : Prop := Forall2 same_letter suf (str "asc").
Definition tif_suffix (suf : bytes) : Prop := Forall2 same_letter suf (str "tif").

(** The file [core.suf] of the directory [d], and the one of layer number [k]. *)
Definition file_name (d core suf : bytes) : bytes := d ++ "/"%char :: core ++ "."%char :: suf.
Definition layer_file (d core suf : bytes) (k : Z) : bytes := file_name d (core ++ "_"%char :: itoa k) suf.

(** The operating system takes [f] to be the file [core.suf] of the directory [d],
    named by its absolute path [a]. *)
Definition named (o : os) (f a d core suf : bytes) : Prop :=
  resolves o f a /\ resolves o a a /\ not_directory o a /\ path_parts a d core suf /\ suf <> [].
(** The name is its own absolute form, and not that of a directory. *)
Definition settled (o : os) (a : bytes) : Prop := resolves o a a /\ not_directory o a.

(** The suffix of the files written when [suf] is asked for, with and without
    GDAL. *)
Definition written_suffix (gdal : bool) (suf suf' : bytes) : Prop :=
  asc_suffix suf /\ suf' = suf \/
  ~ asc_suffix suf /\ gdal = true /\ tif_suffix suf /\ suf' = suf \/
  ~ asc_suffix suf /\ gdal = true /\ ~ tif_suffix suf /\ suf' = str "tif" \/
  ~ asc_suffix suf /\ gdal = false /\ suf' = str "asc".

(** Layers of ASC files count from 0, those of GeoTIFF files from 1. *)
Definition first_number (suf : bytes) (n : Z) : Prop := asc_suffix suf /\ n = 0 \/ tif_suffix suf /\ n = 1.

(** The names a raster is written to. *)
Definition names_of {T} (r : raster T) (d core suf : bytes) (n : Z) : list bytes :=
  if r_is2d r then map (fun k => layer_file d core suf (k + n)) (zseq (r_nlyrs r)) else [file_name d core suf].

(** Grids whose corner and cell size survive printing and the shift by half a
    cell well enough: cells not smaller than 2^-30, corner within 2^39 cells. *)
Definition tidy_grid (x y cs : f64) : Prop :=
  is_finite x = true /\ is_finite y = true /\ is_finite cs = true /\
  (bpow radix2 (-30) <= B2R cs <= bpow radix2 900 /\
   Rabs (B2R x) <= bpow radix2 39 * B2R cs /\ Rabs (B2R y) <= bpow radix2 39 * B2R cs)%R.

(** [r'] is [r] as far as its first layer has values: [nd] is the NoData value
    as a cell, [ndd] that of the header. Where the first layer has none, all
    further layers of [r'] have none. *)
Definition comes_back (r r' : raster num) (nd : num) (ndd : f64) : Prop :=
  r_rows r' = r_rows r /\ r_cols r' = r_cols r /\ r_nlyrs r' = r_nlyrs r /\ r_nodata r' = nd /\
  forall i j v, inside r i j -> GetValue r i j 1 = Ok v ->
    (cells_equal v nd = false -> GetValue r' i j 1 = Ok v /\
       forall lyr w, 2 <= lyr <= r_nlyrs r -> GetValue r i j lyr = Ok w ->
         GetValue r' i j lyr = Ok (if FloatEqual (as_double w) ndd then nd else w)) /\
    (cells_equal v nd = true -> (exists w, GetValue r' i j 1 = Ok w /\ (w = v \/ w = nd)) /\
       forall lyr, 2 <= lyr <= r_nlyrs r -> GetValue r' i j lyr = Ok nd).

(** The parallel loops of a reader of the files of [r] do their steps in any order
    (which depends on the number of valid cells of the first layer). *)
Definition orders_for (r : raster num) (nd : num) (calc : bool) (order1 : list nat) (orders : nat -> list nat) : Prop :=
  forall l, fg_rows (fl_geo l) = r_rows r -> fg_cols (fl_geo l) = r_cols r -> layer_values r 1 (fl_vals l) -> any_order l nd calc order1 orders.

(** The header of an object read: that of [g] and [nd], with the corner at most
    1/1024 of a cell from [x], [y]. *)
Definition grid_back (h : smap f64) (rows cols : Z) (x y cs nd : f64) : Prop :=
  exists x' y', header_of h (mkFgeo rows cols x' y' cs) nd /\ is_finite x' = true /\ is_finite y' = true /\
    (Rabs (B2R x' - B2R x) <= bpow radix2 (-10) * B2R cs /\ Rabs (B2R y' - B2R y) <= bpow radix2 (-10) * B2R cs)%R.

(** [r2] is [r] with the value [m] in the cells that are not stored. *)
Definition filled (r : raster num) (m : num) (r2 : raster num) : Prop :=
  r_rows r2 = r_rows r /\ r_cols r2 = r_cols r /\ r_nlyrs r2 = r_nlyrs r /\
  forall i j lyr, inside r i j -> layer_ok r lyr ->
    (stored r i j -> GetValue r2 i j lyr = GetValue r i j lyr) /\ (~ stored r i j -> GetValue r2 i j lyr = Ok m).

(** [r] holds codes of the digits that [r2] holds. *)
Definition digit_codes (r r2 : raster num) : Prop :=
  r_rows r2 = r_rows r /\ r_cols r2 = r_cols r /\ r_nlyrs r2 = r_nlyrs r /\
  forall i j lyr, inside r i j -> layer_ok r lyr -> exists z, 0 <= z <= 9 /\ GetValue r i j lyr = Ok (VI (48 + z)) /\ GetValue r2 i j lyr = Ok (VI z).
