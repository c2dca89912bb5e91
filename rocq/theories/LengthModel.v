(** The length of raster data (src/data_raster.hpp). Proof-free. *)
From Coq Require Import ZArith List Bool.
From Verif Require Import Base RasterModel AscModel.
Open Scope Z_scope.

(** data_raster.hpp:1627: the product is one of int *)
Definition GetDataLength {T} (r : raster T) : outcome Z :=
  if (r_ncells r <? 0) || (r_nlyrs r <? 0) then Ok (-1) else imul (r_ncells r) (r_nlyrs r).
