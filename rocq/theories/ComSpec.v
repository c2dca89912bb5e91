(** Vocabulary for combining subset files. *)
From Coq Require Import ZArith List Bool.
From Verif Require Import Base RasterModel RasterSpec SubsetModel SubsetSpec ComModel.
Import ListNotations.
Open Scope Z_scope.

Section Spec.
Context {T D : Type}.
Variable feq : T -> T -> bool.

(** A file holds one layer of values on its grid. *)
Definition grid_file (q : raster T) : Prop := full_grid q /\ r_is2d q = false.

(** Its values that are not NoData, row by row. *)
Definition file_values (q : raster T) : list T :=
  match r_data q with Some d => filter (fun v => negb (feq v (r_nodata q))) d | None => [] end.

(** Files given for the subsets [ids] can be read and have a value that is not NoData. *)
Definition usable_file (f : infile T) : Prop :=
  match i_ras f with
  | Some q => grid_file q /\ file_values q <> [] /\ schedule (Z.of_nat (length (file_values q))) (i_ord f)
  | None => True
  end.
Definition usable_files (ids : list Z) (files : list (infile T)) : Prop :=
  forall f, In f files -> In (i_id f) ids -> usable_file f.

(** The values of the last file for subset [k] that has as many as the subset has
    cells, [n]. *)
Definition fits (k n : Z) (f : infile T) : bool :=
  match i_ras f with Some q => (i_id f =? k) && (Z.of_nat (length (file_values q)) =? n) | None => false end.
Definition fitting (k n : Z) (files : list (infile T)) : option (list T) :=
  match rev (filter (fits k n) files) with
  | f :: _ => option_map file_values (i_ras f)
  | [] => None
  end.

(** The file has the shape of the window of subset [s], and the values [val] at the
    subset's cells, NoData elsewhere. *)
Definition carries (r : raster T) (s : subset D) (val : Z -> T) (q : raster T) : Prop :=
  grid_file q /\ r_rows q = win_rows s /\ r_cols q = win_cols s /\
  forall row col, 0 <= row < win_rows s -> 0 <= col < win_cols s ->
    exists v, GetValue q row col 1 = Ok v /\
      (forall vi, (exists g, s_global s = Some g /\ In vi g) -> cell_at r vi (row + s_srow s) (col + s_scol s) -> v = val vi) /\
      ((forall vi, (exists g, s_global s = Some g /\ In vi g) -> ~ cell_at r vi (row + s_srow s) (col + s_scol s)) -> feq v (r_nodata q) = true).
End Spec.
