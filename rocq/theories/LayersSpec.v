(** Vocabulary for rasters read from several files. *)
From Coq Require Import ZArith Reals Ascii String List Bool.
From Flocq Require Import Core BinarySingleNaN.
From Verif Require Import Base StrModel MapModel FloatModel CoordFloatModel CoordFloatSpec RasterModel RasterSpec AscSpec CellModel LayersModel.
Import ListNotations.
Open Scope Z_scope.

(** A layer as its file gives it: grid, NoData value, values row by row. *)
Record flayer := mkFlayer { fl_geo : fgeo; fl_nodata : f64; fl_vals : list num }.

(** The file is read, and the header says what it holds. *)
Definition header_of (h : smap f64) (g : fgeo) (nd : f64) : Prop :=
  lookup h (str "NROWS") = Some (of_int (fg_rows g)) /\ lookup h (str "NCOLS") = Some (of_int (fg_cols g)) /\
  lookup h (str "XLLCENTER") = Some (fg_xll g) /\ lookup h (str "YLLCENTER") = Some (fg_yll g) /\
  lookup h (str "CELLSIZE") = Some (fg_cs g) /\ lookup h (str "NODATA_VALUE") = Some nd.
Definition gives (got : outcome layer_read) (l : flayer) : Prop :=
  exists h, got = Ok (true, h, Some (fl_vals l)) /\ header_of h (fl_geo l) (fl_nodata l) /\
  lookup h (str "LAYERS") = Some (of_int 1) /\ lookup h (str "CELLSNUM") = Some (of_int (fg_rows (fl_geo l) * fg_cols (fl_geo l))).

(** The sizes agree. *)
Definition proper (l : flayer) : Prop :=
  grid_size (fg_rows (fl_geo l)) (fg_cols (fl_geo l)) /\ sane (fl_geo l) /\
  Z.of_nat (List.length (fl_vals l)) = fg_rows (fl_geo l) * fg_cols (fl_geo l).

(** The value in row [i], column [j] of the file. *)
Definition file_value (l : flayer) (i j : Z) (v : num) : Prop :=
  0 <= i < fg_rows (fl_geo l) /\ 0 <= j < fg_cols (fl_geo l) /\
  nth_error (fl_vals l) (Z.to_nat (i * fg_cols (fl_geo l) + j)) = Some v.

(** The point is left of or below the lower left cell's centre, or at least 1/256
    of a cell beyond the right or upper edge. *)
Definition apart (g : fgeo) (x y : f64) : Prop :=
  is_finite x = true /\ is_finite y = true /\
  (B2R x < B2R (fg_xll g) \/ B2R y < B2R (fg_yll g) \/
   B2R (fg_xll g) + (IZR (fg_cols g) - / 2 + / 256) * B2R (fg_cs g) <= B2R x \/
   B2R (fg_yll g) + (IZR (fg_rows g) - / 2 + / 256) * B2R (fg_cs g) <= B2R y)%R.

(** What the layer has at the point: the value of the cell the point is in (not
    too near its edges), or nothing. [nd] is the NoData value of the raster. *)
Definition seen (l : flayer) (nd : num) (x y : f64) (v : num) : Prop :=
  (exists i j w, well_inside (fl_geo l) i j x y /\ (B2R (fg_xll (fl_geo l)) <= B2R x)%R /\ (B2R (fg_yll (fl_geo l)) <= B2R y)%R /\
     file_value l i j w /\ v = (if FloatEqual (as_double w) (fl_nodata l) then nd else w)) \/
  apart (fl_geo l) x y /\ v = nd.

(** Orders in which the loops may run: over the valid cells of the first layer, or
    over all its cells and then over its rows. *)
Definition valid_count (l : flayer) (nd : num) : Z := Z.of_nat (List.length (filter (fun v => negb (cells_equal v nd)) (fl_vals l))).
Definition any_order (l : flayer) (nd : num) (calc : bool) (order1 : list nat) (orders : nat -> list nat) : Prop :=
  if calc then schedule (valid_count l nd) order1 /\ forall k, schedule (valid_count l nd) (orders k)
  else schedule (fg_rows (fl_geo l) * fg_cols (fl_geo l)) (orders 0%nat) /\ forall k, schedule (fg_rows (fl_geo l)) (orders (S k)).
