(** Vocabulary for stating properties of rasters: the well-formed shapes of the
    stored data, independent of how the functions compute. *)
From Coq Require Import ZArith List Bool Sorted Permutation.
From Verif Require Import Base RasterModel.
Import ListNotations.
Open Scope Z_scope.

Section Spec.
Context {T : Type}.

(** The object stores [n] cells of [r_nlyrs] layers each. *)
Definition storage (r : raster T) (n : Z) : Prop :=
  if r_is2d r
  then exists d, r_data2d r = Some d /\ Z.of_nat (length d) = n /\
                 Forall (fun c => Z.of_nat (length c) = r_nlyrs r) d
  else r_nlyrs r = 1 /\ exists d, r_data r = Some d /\ Z.of_nat (length d) = n.

(** A raster holding every cell of its grid, without positions in use. This is
    what the array constructors and the file readers build. *)
Definition full_grid (r : raster T) : Prop :=
  0 < r_rows r /\ 0 < r_cols r /\ 1 <= r_nlyrs r /\
  r_ncells r = r_rows r * r_cols r /\ storage r (r_rows r * r_cols r) /\
  r_pos r = None /\ r_posidx r = None.

(** A raster holding the cells whose row-major numbers are [ix] (at least one). *)
Definition compact (r : raster T) (ix : list Z) : Prop :=
  0 < r_rows r /\ 0 < r_cols r /\ 1 <= r_nlyrs r /\
  0 < r_ncells r /\ r_ncells r = Z.of_nat (length ix) /\ storage r (r_ncells r) /\
  r_calc r = true /\ r_posidx r = Some ix /\
  r_pos r = Some (map (fun k => (k / r_cols r, k mod r_cols r)) ix) /\
  StronglySorted Z.lt ix /\ Forall (fun k => 0 <= k < r_rows r * r_cols r) ix.

(** A raster all of whose cells were dropped. *)
Definition emptied (r : raster T) : Prop :=
  0 < r_rows r /\ 0 < r_cols r /\ 1 <= r_nlyrs r /\
  r_ncells r = 0 /\ r_calc r = true /\ r_pos r = Some [] /\ r_posidx r = None /\
  (if r_is2d r then r_data2d r = Some [] else r_nlyrs r = 1 /\ r_data r = None).

Definition wf (r : raster T) : Prop :=
  full_grid r \/ (exists ix, compact r ix) \/ emptied r.

(** Cell inside the grid. *)
Definition inside (r : raster T) (row col : Z) : Prop :=
  0 <= row < r_rows r /\ 0 <= col < r_cols r.

Definition layer_ok (r : raster T) (lyr : Z) : Prop := 1 <= lyr <= r_nlyrs r.

(** The cell is one the object has storage for. *)
Definition stored (r : raster T) (row col : Z) : Prop :=
  inside r row col /\
  (full_grid r \/ exists ix, compact r ix /\ In (row * r_cols r + col) ix).

(** An order in which [n] parallel iterations may run. *)
Definition schedule (n : Z) (ord : list nat) : Prop := Permutation ord (seq 0 (Z.to_nat n)).

(** The two rasters agree on everything but the stored cell values. *)
Definition same_frame (r r' : raster T) : Prop :=
  r' = set_cells r (r_data r') (r_data2d r').
End Spec.

(** Histories of updates and the grid a user has in mind. *)
Inductive rop (T : Type) : Type :=
| OSet (row col : Z) (v : T) (lyr : Z)     (* SetValue *)
| OReplace (v : T)                         (* ReplaceNoData *)
| OCalc.                                   (* SetCalcPositions *)
Arguments OSet {T}. Arguments OReplace {T}. Arguments OCalc {T}.

(** What a user believes to hold: a NoData value, which cells accept writes,
    whether NoData cells were dropped, and a value for each cell and layer. *)
Record agrid (T : Type) : Type := mkAgrid {
  ag_lyrs : Z; ag_nd : T; ag_dropped : bool;
  ag_st : Z -> Z -> bool; ag_val : Z -> Z -> Z -> T
}.
Arguments mkAgrid {T}. Arguments ag_lyrs {T}. Arguments ag_nd {T}. Arguments ag_dropped {T}.
Arguments ag_st {T}. Arguments ag_val {T}.

Section History.
Context {T : Type}.
Variable feq : T -> T -> bool.

Definition writable (g : agrid T) (row col lyr : Z) : bool :=
  ag_st g row col && (1 <=? lyr) && (lyr <=? ag_lyrs g).

Definition spec_op (o : rop T) (g : agrid T) : agrid T :=
  match o with
  | OSet row col v lyr =>
      mkAgrid (ag_lyrs g) (ag_nd g) (ag_dropped g) (ag_st g)
        (fun row' col' lyr' =>
           if writable g row col lyr && (row' =? row) && (col' =? col) && (lyr' =? lyr)
           then v else ag_val g row' col' lyr')
  | OReplace v =>
      mkAgrid (ag_lyrs g) v (ag_dropped g) (ag_st g)
        (fun row col lyr =>
           if writable g row col lyr
           then if feq (ag_val g row col lyr) (ag_nd g) then v else ag_val g row col lyr
           else v)
  | OCalc =>
      if ag_dropped g then g else
      let keep row col := ag_st g row col && negb (feq (ag_val g row col 1) (ag_nd g)) in
      mkAgrid (ag_lyrs g) (ag_nd g) true keep
        (fun row col lyr => if keep row col then ag_val g row col lyr else ag_nd g)
  end.

(** One call on the real object; parallel loops take any schedule. *)
Inductive op_step : rop T -> raster T -> raster T -> Prop :=
| step_set row col v lyr r r' :
    SetValue r row col v lyr = Ok r' -> op_step (OSet row col v lyr) r r'
| step_replace v ord r r' :
    schedule (r_ncells r) ord -> ReplaceNoData feq ord r v = Ok r' -> op_step (OReplace v) r r'
| step_calc ord r r' b :
    SetCalcPositions feq ord r = Ok (r', b) ->
    (forall n, CalcIterations feq r = Ok n -> schedule n ord) -> op_step OCalc r r'.

Inductive op_run : list (rop T) -> raster T -> raster T -> Prop :=
| run_nil r : op_run [] r r
| run_cons o os r r1 r' : op_step o r r1 -> op_run os r1 r' -> op_run (o :: os) r r'.

(** The object shows the grid. *)
Definition shows (r : raster T) (g : agrid T) : Prop :=
  ag_lyrs g = r_nlyrs r /\ ag_nd g = r_nodata r /\
  (ag_dropped g = true <-> ~ full_grid r) /\
  (forall row col, ag_st g row col = true <-> stored r row col) /\
  (forall row col lyr, GetValue r row col lyr = Ok (ag_val g row col lyr)).

(** The grid shown by a raster that holds all its cells. *)
Definition grid_view (r : raster T) : agrid T :=
  mkAgrid (r_nlyrs r) (r_nodata r) false
    (fun row col => (0 <=? row) && (row <? r_rows r) && (0 <=? col) && (col <? r_cols r))
    (fun row col lyr => match GetValue r row col lyr with Ok v => v | _ => r_nodata r end).
End History.
