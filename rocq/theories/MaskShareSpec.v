(** Vocabulary for one mask used by several threads. *)
From Coq Require Import ZArith List Bool.
From Verif Require Import Base RasterModel ParModel ParSpec ShareModel.
Import ListNotations.
Open Scope Z_scope.

Section Spec.
Context {T D : Type}.

(** The cells of a grid by rows, and those of them that are not NoData. *)
Definition grid_cells (rows cols : Z) : list (Z * Z) := flat_map (fun i => map (fun j => (i, j)) (zseq cols)) (zseq rows).
Definition valid_cells (feq : T -> T -> bool) (nd : T) (value : Z -> Z -> T) (rows cols : Z) : list (Z * Z) :=
  filter (fun c => negb (feq (value (fst c) (snd c)) nd)) (grid_cells rows cols).

(** The memory holds a mask of one layer that is a complete grid of these values, without
    positions, and has room for the positions of [n] cells. *)
Definition holds_grid (m : mem T D) (nd : T) (value : Z -> Z -> T) (rows cols n : Z) : Prop :=
  m F_2d = Some (WI 0) /\ m F_data = Some (WI 1) /\ m F_rows = Some (WI rows) /\ m F_cols = Some (WI cols) /\ m F_nodata = Some (WT nd) /\
  m F_pos = Some (WI 0) /\ m F_cells = Some (WI (rows * cols)) /\ m F_posidx <> None /\ m F_calc <> None /\
  (forall i j, 0 <= i < rows -> 0 <= j < cols -> m (A_raster, i * cols + j, 0) = Some (WT (value i j))) /\
  there2 m A_pos n 2 /\ there1 m A_posidx n.
(** The memory holds a mask with these positions. *)
Definition holds_positions (m : mem T D) (rows cols : Z) (ps : list (Z * Z)) : Prop :=
  m F_rows = Some (WI rows) /\ m F_cols = Some (WI cols) /\ m F_pos = Some (WI 1) /\ m F_cells = Some (WI (Z.of_nat (length ps))) /\
  (forall i a b, aget ps i = Ok (a, b) -> m (A_pos, i, 0) = Some (WI a) /\ m (A_pos, i, 1) = Some (WI b)).
End Spec.
