(** Vocabulary for the masking properties. *)
From Coq Require Import ZArith QArith List Bool.
From Verif Require Import Base RasterModel RasterSpec CoordModel CoordSpec.
Import ListNotations.
Open Scope Z_scope.

Section Spec.
Context {T M : Type}.
Variable feq : T -> T -> bool.
Variable feqM : M -> M -> bool.

(** A raster as the readers leave it: all cells of the grid, no positions; the
    member n_cells_ need not be set yet. *)
Definition loaded (r : raster T) : Prop :=
  0 < r_rows r /\ 0 < r_cols r /\ 1 <= r_nlyrs r /\
  storage r (r_rows r * r_cols r) /\ r_pos r = None /\ r_posidx r = None.

(** The cell is one of the mask's valid cells: a stored one when the mask keeps
    only some cells, otherwise one that is not NoData in layer 1. *)
Definition mask_valid (m : raster M) (row col : Z) : Prop :=
  inside m row col /\
  ((exists ix, compact m ix /\ In (row * r_cols m + col) ix) \/
   (full_grid m /\ exists v, GetValue m row col 1 = Ok v /\ feqM v (r_nodata m) = false)).

(** Orders in which the mask's own parallel loop may run. *)
Definition mask_order (m : raster M) (ord : list nat) : Prop :=
  forall n, CalcIterations feqM m = Ok n -> schedule n ord.

(** The default value stands in for NoData, unless it is itself NoData. *)
Definition replaced (r : raster T) (v : T) : T :=
  if feq v (r_nodata r) then if feq (r_default r) (r_nodata r) then v else r_default r else v.

(** Where the centre of a mask cell lies in the source grid. [AtEdge]: on the
    line that bounds the last column. *)
Inductive place := At (i j : Z) | AtEdge | Away.
Definition centre (m : raster M) (row col : Z) : Q * Q := 
  ((r_xll m + inject_Z col * r_cs m)%Q, (r_yll m + inject_Z (r_rows m - row - 1) * r_cs m)%Q).
Definition lies (r : raster T) (x y : Q) (p : place) : Prop :=
  let g := geo_of r in
  match p with
  | At i j => cell_of_grid g i j /\ in_cell g i j x y /\ (g_xll g <= x)%Q /\ (g_yll g <= y)%Q
  | AtEdge => (x == g_xll g + (inject_Z (g_cols g) - (1 # 2)) * g_cs g)%Q /\
              (g_yll g <= y <= g_yll g + (inject_Z (g_rows g) - (1 # 2)) * g_cs g)%Q
  | Away => (x < g_xll g)%Q \/ (g_xll g + (inject_Z (g_cols g) - (1 # 2)) * g_cs g < x)%Q \/
            (y < g_yll g)%Q \/ (g_yll g + (inject_Z (g_rows g) - (1 # 2)) * g_cs g < y)%Q
  end.

(** The value a mask cell is expected to get: that of the source cell below its
    centre, NoData replaced by the default value; NoData away from the source. *)
Definition sees (r : raster T) (m : raster M) (row col lyr : Z) (v : T) : Prop :=
  exists p, lies r (fst (centre m row col)) (snd (centre m row col)) p /\
    match p with
    | At i j => exists v0, GetValue r i j lyr = Ok v0 /\ v = replaced r v0
    | AtEdge => v = replaced r (r_nodata r)
    | Away => v = r_nodata r
    end.

(** The source holds data below the mask cell (layer 1). *)
Definition matches (r : raster T) (m : raster M) (row col : Z) : Prop :=
  exists i j v, lies r (fst (centre m row col)) (snd (centre m row col)) (At i j) /\
    GetValue r i j 1 = Ok v /\ feq v (r_nodata r) = false.

(** No two valid mask cells have their centres in the same source cell. *)
Definition one_to_one (r : raster T) (m : raster M) : Prop :=
  forall row col row' col' i j,
    mask_valid m row col -> mask_valid m row' col' ->
    lies r (fst (centre m row col)) (snd (centre m row col)) (At i j) ->
    lies r (fst (centre m row' col')) (snd (centre m row' col')) (At i j) ->
    row = row' /\ col = col'.

(** The default value does not replace anything. *)
Definition no_default (r : raster T) : Prop := feq (r_default r) (r_nodata r) = true.

(** The smallest rectangle of mask cells around all matches. *)
Definition match_box (r : raster T) (m : raster M) (r0 r1 c0 c1 : Z) : Prop :=
  (forall row col, mask_valid m row col -> matches r m row col -> r0 <= row <= r1 /\ c0 <= col <= c1) /\
  (exists col, mask_valid m r0 col /\ matches r m r0 col) /\ (exists col, mask_valid m r1 col /\ matches r m r1 col) /\
  (exists row, mask_valid m row c0 /\ matches r m row c0) /\ (exists row, mask_valid m row c1 /\ matches r m row c1).

(** Masking does not alter the source while it is being read. *)
Definition quiet (r : raster T) (m : raster M) : Prop := no_default r \/ one_to_one r m.

(** Some valid mask cell lies over the source. *)
Definition touches (r : raster T) (m : raster M) : Prop :=
  exists row col, mask_valid m row col /\ ~ lies r (fst (centre m row col)) (snd (centre m row col)) Away.

Definition in_box (r0 r1 c0 c1 row col : Z) : Prop := r0 <= row <= r1 /\ c0 <= col <= c1.
End Spec.

(** A cell that survives when NoData cells are dropped. *)
Definition kept_cell {T M} feq feqM (r : raster T) (m : raster M) (r0 r1 c0 c1 row col : Z) : Prop :=
  mask_valid feqM m row col /\ in_box r0 r1 c0 c1 row col /\
  exists v, sees feq r m row col 1 v /\ feq v (r_nodata r) = false.
