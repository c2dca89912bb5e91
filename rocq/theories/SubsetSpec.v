(** Vocabulary for the subset properties. *)
From Coq Require Import ZArith List Bool Sorted.
From Verif Require Import Base RasterModel RasterSpec SubsetModel.
Import ListNotations.
Open Scope Z_scope.

Section Spec.
Context {T D : Type}.
Variable feq : T -> T -> bool.
Variable toint : T -> option Z.

(** Cell number [vi] of the stored cells is valid and its zone value [z] belongs
    to group [k]: the group the table gives to [z], or [z] itself. *)
Definition in_group (r : raster T) (groups : list (Z * Z)) (k vi : Z) : Prop :=
  0 <= vi < r_ncells r /\
  exists v z, read_cell r vi 1 = Ok v /\ feq v (r_nodata r) = false /\ toint v = Some z /\
              (zfind groups z = Some k \/ zfind groups z = None /\ k = z).

(** Every valid cell value is an [int] after dropping the fraction. *)
Definition zones_fit (r : raster T) : Prop :=
  forall vi v, 0 <= vi < r_ncells r -> read_cell r vi 1 = Ok v -> feq v (r_nodata r) = false -> toint v <> None.

(** Row and column of stored cell [vi]. *)
Definition cell_at (r : raster T) (vi row col : Z) : Prop :=
  exists ps, r_pos r = Some ps /\ nth_error ps (Z.to_nat vi) = Some (row, col).

(** The arrays of a built subset: cells in ascending order, positions relative
    to the window. *)
Definition subset_of (s : subset D) (g : list Z) (lp : list (Z * Z)) (li : list Z) : Prop :=
  s_global s = Some g /\ s_lpos s = Some lp /\ s_lidx s = Some li /\
  s_n s = Z.of_nat (length g) /\ length lp = length g /\ length li = length g.

(** The window is the bounding box of the cells [g]. *)
Definition bounding_box (r : raster T) (s : subset D) (g : list Z) : Prop :=
  (forall vi row col, In vi g -> cell_at r vi row col ->
     s_srow s <= row <= s_erow s /\ s_scol s <= col <= s_ecol s) /\
  (exists vi col, In vi g /\ cell_at r vi (s_srow s) col) /\
  (exists vi col, In vi g /\ cell_at r vi (s_erow s) col) /\
  (exists vi row, In vi g /\ cell_at r vi row (s_scol s)) /\
  (exists vi row, In vi g /\ cell_at r vi row (s_ecol s)).
End Spec.

(** * What a user does with subsets *)
Open Scope outcome_scope.
Section Use.
Context {T D : Type}.
Variable toD : T -> D.
Variable dNODATA : D.

(** Hand every subset the values of its own cells. *)
Definition split_values (r : raster T) (subs : list (Z * subset D)) : outcome (list (Z * subset D)) :=
  omapm (fun ks =>
    let* g := deref (s_global (snd ks)) in
    let* vals := omapm (fun vi => read_cell r vi 1) g in
    let* sb := SetData toD dNODATA (snd ks) (s_n (snd ks)) (Some vals) in
    Ok (fst ks, fst sb)) subs.

(** The same with all layers. *)
Definition split_layers (r : raster T) (subs : list (Z * subset D)) : outcome (list (Z * subset D)) :=
  omapm (fun ks =>
    let* g := deref (s_global (snd ks)) in
    let* vals := omapm (fun vi => omapm (fun l => read_cell r vi (l + 1)) (zseq (r_nlyrs r))) g in
    let* sb := Set2DData toD dNODATA (snd ks) (s_n (snd ks)) (r_nlyrs r) (Some vals) in
    Ok (fst ks, fst sb)) subs.

(** Mark subsets as usable or not. *)
Definition mark (us : Z -> bool) (subs : list (Z * subset D)) : list (Z * subset D) :=
  map (fun ks => (fst ks, set_sdata (snd ks) (s_lyrs (snd ks)) (s_data (snd ks)) (s_data2 (snd ks)) (us (fst ks)))) subs.
End Use.

(** Row of a reclassification table. *)
Definition table_value {D} (recls : list (Z * list D)) (k l : Z) (default : D) : D :=
  match zfind recls k with
  | Some row => match nth_error row (Z.to_nat l) with Some x => x | None => default end
  | None => default
  end.

(** Change data or usability of subsets, keeping their cells. *)
Definition refill {D} (f : Z * subset D -> subset D) (subs : list (Z * subset D)) : list (Z * subset D) :=
  map (fun ks => (fst ks, f ks)) subs.
Definition keeps_cells {D} (f : Z * subset D -> subset D) : Prop :=
  forall ks, s_global (f ks) = s_global (snd ks) /\ s_n (f ks) = s_n (snd ks).

(** Subset id and layer number of the files wanted for the marked subsets. *)
Definition wanted_files {D} (us : Z -> bool) (nlyrs : Z) (subs : list (Z * subset D)) : list (Z * Z) :=
  flat_map (fun ks => if us (fst ks) then map (fun l => (fst ks, if nlyrs =? 1 then 0 else l + 1)) (zseq nlyrs) else []) subs.

(** Window shape. *)
Definition win_rows {D} (s : subset D) : Z := s_erow s - s_srow s + 1.
Definition win_cols {D} (s : subset D) : Z := s_ecol s - s_scol s + 1.
