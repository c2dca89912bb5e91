(** Setting the header of a raster (src/data_raster.hpp). Proof-free. *)
From Coq Require Import ZArith QArith List Bool.
From Verif Require Import Base RasterModel StrModel MapModel FloatModel CoordFloatModel CopyModel AscModel GridfsModel.
Import ListNotations.
Open Scope Z_scope.
Open Scope outcome_scope.

(** data_raster.hpp:1632-1641 GetXllCenter, 1644-1653 GetYllCenter; [centre], [corner]: the
    two keys. *)
Definition GetCenter (h : smap f64) (centre corner : bytes) : outcome f64 :=
  match lookup h centre with
  | Some x => Ok x
  | None => match lookup h corner with
            | Some x => let* cs := at_get h K_CELLSIZE in Ok (fadd x (fmul half cs))
            | None => Ok (of_int (-9999))
            end
  end.
(** data_raster.hpp:2776-2780: an entry, or what there is *)
Definition entry {A} (h : smap f64) (k : bytes) (cast : f64 -> outcome A) (old : A) : outcome A :=
  match lookup h k with Some d => cast d | None => Ok old end.
(** data_raster.hpp:2773-2782 SetHeader, on the header and the object. The rows, columns and
    coordinates of RasterModel.v are those the getters (1628-1653) take from the header;
    they are read here instead of at each use. [cast]: static_cast to the cell type. *)
Definition SetHeader {T} (cast : f64 -> outcome T) (refers h : smap f64) (r : raster T) : outcome (smap f64 * raster T) :=
  let h' := CopyMap refers h in
  let* n := entry h' K_CELLSNUM f_int (r_ncells r) in
  let* l := entry h' K_LAYERS f_int (r_nlyrs r) in
  let* nd := entry h' K_NODATA cast (r_nodata r) in
  let* rows_d := at_get h' K_NROWS in let* rows := f_int rows_d in
  let* cols_d := at_get h' K_NCOLS in let* cols := f_int cols_d in
  let* x := GetCenter h' K_XLL K_XLLCOR in
  let* y := GetCenter h' K_YLL K_YLLCOR in
  let* cs := at_get h' K_CELLSIZE in
  Ok (h', mkRaster rows cols (q_of x) (q_of y) (q_of cs) nd n l n l nd (r_default r) (r_is2d r) (r_data r) (r_data2d r)
                   (r_pos r) (r_posidx r) (r_calc r) (r_store r) (r_maskext r) (r_init r)).
