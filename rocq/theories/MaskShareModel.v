(** One mask object used by several threads, each masking a raster of its own: what they
    access of the mask. Proof-free.

    The mask has one layer. The arrays made anew (raster_, pos_data_, pos_idx_) are the
    elements of the same names, so that freeing the old ones is not an access; the entry
    CELLSNUM of the header and store_pos_, which nothing reads here, are left out; the
    parallel loops within are run in order (C149). *)
From Coq Require Import ZArith List Bool.
From Verif Require Import Base RasterModel ParModel ShareModel.
Import ListNotations.
Open Scope Z_scope.

Section MaskShare.
Variables T D : Type.
(** FloatEqual with the NoData value (data_raster.hpp:3820). *)
Variable feq : T -> T -> bool.
(** What a thread learns of the mask: rows, columns, the positions of its valid cells
    (data_raster.hpp:3890-3911). *)
Definition learnt := (Z * Z * list (Z * Z))%type.
Notation prog := (prog T D learnt).

(** data_raster.hpp:1765-1771 ValidateRasterData *)
Definition ValidateM (k : bool -> prog) : prog :=
  rdI F_2d (fun two => if two =? 0 then rdI F_data (fun p => k (negb (p =? 0))) else rdI F_data2 (fun p => k (negb (p =? 0)))).
(** data_raster.hpp:3809-3831: the cells that are not NoData, with rows and columns *)
Fixpoint validM (cols : Z) (cells : list (Z * Z)) (seen : list (Z * Z * T)) (k : list (Z * Z * T) -> prog) : prog :=
  match cells with
  | [] => k seen
  | (i, j) :: cells => rdT (A_raster, i * cols + j, 0) (fun x => rdT F_nodata (fun nd =>
      validM cols cells (if feq x nd then seen else seen ++ [(i, j, x)]) k))
  end.
(** Writes one after the other (data_raster.hpp:3838-3867). *)
Fixpoint writes (ws : list (loc * word T D)) (p : prog) : prog := match ws with [] => p | (l, w) :: ws => Wr l w (writes ws p) end.
(** data_raster.hpp:3838-3850: the number of cells; the new arrays, filled with NoData and
    zeros (utils_array.h:344-356, 387-405: the pointer is set first) *)
Definition fresh (nd : T) (n : Z) : list (loc * word T D) :=
  [(F_cells, WI n); (F_data, WI 0); (F_data, WI 1)] ++ map (fun i => ((A_raster, i, 0), WT nd)) (zseq n) ++
  [(F_pos, WI 1)] ++ flat_map (fun i => [((A_pos, i, 0), WI 0); ((A_pos, i, 1), WI 0)]) (zseq n) ++
  [(F_posidx, WI 1)] ++ map (fun i => ((A_posidx, i, 0), WI 0)) (zseq n).
(** data_raster.hpp:3852-3867: the elements of the cells from number [k] on *)
Fixpoint filled (cols k : Z) (vs : list (Z * Z * T)) : list (loc * word T D) :=
  match vs with
  | [] => []
  | (i, j, x) :: vs => [((A_raster, k, 0), WT x); ((A_pos, k, 0), WI i); ((A_pos, k, 1), WI j); ((A_posidx, k, 0), WI (i * cols + j))] ++ filled cols (k + 1) vs
  end.
(** data_raster.hpp:3801-3869 CalculateValidPositionsFromGridData *)
Definition CalculateM (p : prog) : prog :=
  rdI F_rows (fun rows => rdI F_cols (fun cols =>
  validM cols (flat_map (fun i => map (fun j => (i, j)) (zseq cols)) (zseq rows)) [] (fun vs =>
  rdT F_nodata (fun nd => writes (fresh nd (Z.of_nat (length vs)) ++ filled cols 0 vs ++ [(F_calc, WI 1)]) p)))).
(** data_raster.hpp:2641-2656 GetRasterPositionData: the number of cells, -1 if there is no
    data *)
Definition PositionsM (k : Z -> prog) : prog :=
  rdI F_pos (fun p => if negb (p =? 0) then rdI F_cells k else
  ValidateM (fun ok => if ok then CalculateM (rdI F_cells k) else k (-1))).
(** data_raster.hpp:3909-3911: reading the positions *)
Fixpoint read_posM (ix : list Z) (seen : list (Z * Z)) (k : list (Z * Z) -> prog) : prog :=
  match ix with
  | [] => k seen
  | i :: ix => rdI (A_pos, i, 0) (fun a => rdI (A_pos, i, 1) (fun b => read_posM ix (seen ++ [(a, b)]) k))
  end.
(** data_raster.hpp:3872-3911 MaskAndCalculateValidPosition, as far as the mask is accessed *)
Definition UseMask : prog :=
  rdI F_rows (fun rows => rdI F_cols (fun cols =>
  PositionsM (fun n => read_posM (zseq n) [] (fun ps => Add (rows, cols, ps) Done)))).
End MaskShare.
Arguments ValidateM {T D}. Arguments validM {T D}. Arguments writes {T D}. Arguments fresh {T D}. Arguments filled {T D}.
Arguments CalculateM {T D}. Arguments PositionsM {T D}. Arguments read_posM {T D}. Arguments UseMask {T D}.
