(** Vocabulary for reading with a mask that has subsets. *)
From Coq Require Import ZArith List Bool.
From Verif Require Import Base RasterModel NumModel GridfsModel.
Open Scope Z_scope.

(** What reading sees of a mask that has positions and no NoData value among them. *)
Definition view_of {M} (v : mask_view) (m : raster M) : Prop :=
  mk_valid v = r_ncells m /\ mk_count v = r_ncells m /\ mk_pos v = r_pos m /\ mk_idx v = r_posidx m.

(** The raster with other flags for positions and extent. *)
Definition flagged {T} (calc ext : bool) (r : raster T) : raster T :=
  mkRaster (r_rows r) (r_cols r) (r_xll r) (r_yll r) (r_cs r) (r_hnodata r) (r_hcells r) (r_hlyrs r) (r_ncells r) (r_nlyrs r) (r_nodata r) (r_default r)
    (r_is2d r) (r_data r) (r_data2d r) (r_pos r) (r_posidx r) calc (r_store r) ext (r_init r).
