(** Property theorems about the raster core (C21-C25, C58). *)
From Coq Require Import ZArith QArith List Bool Lia Permutation Sorted.
From Verif Require Import Base RasterModel RasterSpec ListLib RasterProofs RasterProofs2 RasterProofs3.
Import ListNotations.
Open Scope Z_scope.

(** ** The shapes assumed below are the ones the constructors build. *)
Theorem C22_constructor_full : forall (T : Type) (d : list T) cols rows nd df dx xll yll,
  0 < cols -> 0 < rows -> Z.of_nat (length d) = cols * rows ->
  full_grid (FromArray (Some d) cols rows nd df dx xll yll).
Proof. exact @FromArray_full. Qed.
Print Assumptions C22_constructor_full.

Theorem C22_constructor2d_full : forall (T : Type) (d : list (list T)) cols rows lyrs nd df dx xll yll,
  0 < cols -> 0 < rows -> 1 <= lyrs -> Z.of_nat (length d) = cols * rows ->
  Forall (fun c => Z.of_nat (length c) = lyrs) d ->
  full_grid (FromArray2D (Some d) cols rows lyrs nd df dx xll yll).
Proof. exact @FromArray2D_full. Qed.
Print Assumptions C22_constructor2d_full.

Definition ex1 : raster Z := FromArray (Some [1; -9999; 3; -9999; 5; 6]) 3 2 (-9999) (-9999) 1 0 0.
Definition ex2 : raster Z :=
  FromArray2D (Some [[1; 10]; [-9999; 20]; [3; -9999]; [4; 40]]) 2 2 2 (-9999) (-9999) 1 0 0.

Example ex1_full : full_grid ex1.
Proof. apply FromArray_full; cbn; lia. Qed.
Example ex2_full : full_grid ex2.
Proof. apply FromArray2D_full; cbn; try lia. repeat constructor. Qed.

(** ** C21. Position lookup on a raster with calculated positions. *)
Theorem C21_position : forall (T : Type) (r : raster T) ix row col,
  compact r ix -> inside r row col ->
  (exists i, GetPosition r row col = Ok i /\ 0 <= i < r_ncells r /\
             nth_error ix (Z.to_nat i) = Some (row * r_cols r + col))
  \/ (GetPosition r row col = Ok (-1) /\ ~ In (row * r_cols r + col) ix).
Proof. exact @GetPosition_compact. Qed.
Print Assumptions C21_position.

Theorem C21_outside : forall (T : Type) (r : raster T) row col,
  ~ inside r row col -> GetPosition r row col = Ok (-2).
Proof. exact @GetPosition_outside. Qed.
Print Assumptions C21_outside.

Theorem C21_full : forall (T : Type) (r : raster T) row col,
  full_grid r -> inside r row col -> GetPosition r row col = Ok (row * r_cols r + col).
Proof. exact @GetPosition_full. Qed.
Print Assumptions C21_full.

(** The lookup itself, on any strictly increasing list. *)
Theorem C21_search : forall ix target, StronglySorted Z.lt ix ->
  (exists m, search (S (length ix)) ix target 0 (Z.of_nat (length ix) - 1) = Ok m /\ 0 <= m /\
             nth_error ix (Z.to_nat m) = Some target)
  \/ (search (S (length ix)) ix target 0 (Z.of_nat (length ix) - 1) = Ok (-1) /\ ~ In target ix).
Proof. exact search_all. Qed.
Print Assumptions C21_search.

Example C21_ex : exists r, SetCalcPositions Z.eqb [2;0;1;3]%nat ex1 = Ok (r, true) /\
  compact r [0; 2; 4; 5] /\ GetPosition r 1 1 = Ok 2 /\ GetPosition r 1 0 = Ok (-1).
Proof.
  eexists. split; [vm_compute; reflexivity|]. split; [|split; reflexivity].
  unfold compact, storage; cbn. repeat split; try lia; try reflexivity.
  - eexists; split; vm_compute; reflexivity.
  - repeat constructor; lia.
  - repeat constructor; lia.
Qed.

(** When every cell of a layered raster is dropped the lookup claims a stored
    position for cells that have none. *)
Theorem C21_emptied_layers_refuted : exists (r r' : raster Z) row col i,
  full_grid r /\ SetCalcPositions Z.eqb [] r = Ok (r', true) /\ r_ncells r' = 0 /\
  GetPosition r' row col = Ok i /\ 0 <= i.
Proof.
  exists (FromArray2D (Some [[-9999; 1]; [-9999; 2]]) 2 1 2 (-9999) (-9999) 1 0 0).
  eexists. exists 0, 1, 1. split; [apply FromArray2D_full; cbn; try lia; repeat constructor|].
  split; [vm_compute; reflexivity|]. split; [vm_compute; reflexivity|]. split; [reflexivity|lia].
Qed.
Print Assumptions C21_emptied_layers_refuted.

(** ** C22. Dropping the NoData cells: positions are exactly the cells whose
    first layer is not NoData, once each in row-major order; the stored values
    are those cells' values; and reading by row and column gives what it gave
    before wherever the first layer is not NoData. One result for every
    schedule of the parallel loop. *)
Theorem C22_compaction : forall (T : Type) (feq : T -> T -> bool) (r : raster T),
  full_grid r -> exists r' pos,
  (forall ord, schedule (r_ncells r') ord -> SetCalcPositions feq ord r = Ok (r', true)) /\
  wf r' /\ r_rows r' = r_rows r /\ r_cols r' = r_cols r /\ r_nlyrs r' = r_nlyrs r /\ r_nodata r' = r_nodata r /\
  r_pos r' = Some pos /\ r_ncells r' = Z.of_nat (length pos) /\
  pos = filter (fun rc => match GetValue r (fst rc) (snd rc) 1 with
                          | Ok x => negb (feq x (r_nodata r)) | _ => false end)
               (grid_cells (r_rows r) (r_cols r)) /\
  (forall i row col lyr, nth_error pos i = Some (row, col) -> layer_ok r lyr ->
     GetValueByIndex r' (Z.of_nat i) lyr = GetValue r row col lyr /\
     GetPosition r' row col = Ok (Z.of_nat i)) /\
  (forall row col lyr, inside r row col -> layer_ok r lyr ->
     exists x1 x, GetValue r row col 1 = Ok x1 /\ GetValue r row col lyr = Ok x /\
       GetValue r' row col lyr = Ok (if feq x1 (r_nodata r) then r_nodata r else x)).
Proof. exact @SetCalcPositions_spec. Qed.
Print Assumptions C22_compaction.

(** [grid_cells] is the row-major enumeration. *)
Theorem C22_row_major : forall rows cols, 0 <= rows -> 0 < cols ->
  grid_cells rows cols = map (fun k => (k / cols, k mod cols)) (zseq (rows * cols)).
Proof. exact grid_cells_divmod. Qed.
Print Assumptions C22_row_major.

(** A second request changes nothing. *)
Theorem C22_again : forall (T : Type) (feq : T -> T -> bool) (r : raster T) ord,
  wf r -> ~ full_grid r -> SetCalcPositions feq ord r = Ok (r, false).
Proof. exact @SetCalcPositions_again. Qed.
Print Assumptions C22_again.

(** Values of the other layers are lost where the first layer is NoData. *)
Theorem C22_other_layers_refuted : exists (r r' : raster Z) ord row col lyr,
  full_grid r /\ SetCalcPositions Z.eqb ord r = Ok (r', true) /\
  inside r row col /\ layer_ok r lyr /\
  GetValue r row col lyr = Ok 20 /\ GetValue r' row col lyr = Ok (-9999).
Proof.
  exists ex2. eexists. exists [0;1;2]%nat, 0, 1, 2. split; [apply ex2_full|].
  split; [vm_compute; reflexivity|]. split; [split; cbn; lia|]. split; [split; cbn; lia|]. split; vm_compute; reflexivity.
Qed.
Print Assumptions C22_other_layers_refuted.

Example C22_ex : exists r, SetCalcPositions Z.eqb [3;0;1;2]%nat ex1 = Ok (r, true) /\
  r_pos r = Some [(0,0);(0,2);(1,1);(1,2)] /\ r_data r = Some [1;3;5;6] /\
  GetValue r 0 1 1 = Ok (-9999) /\ GetValue r 1 2 1 = Ok 6.
Proof. eexists. split; [vm_compute; reflexivity|]. repeat split; vm_compute; reflexivity. Qed.

(** ** C23. *)
Theorem C23_set_stored : forall (T : Type) (r : raster T) row col v lyr,
  wf r -> stored r row col -> layer_ok r lyr ->
  exists r', SetValue r row col v lyr = Ok r' /\ same_frame r r' /\ wf r' /\
    GetValue r' row col lyr = Ok v /\
    (forall row' col' lyr', (row', col', lyr') <> (row, col, lyr) ->
       GetValue r' row' col' lyr' = GetValue r row' col' lyr').
Proof. exact @SetValue_stored. Qed.
Print Assumptions C23_set_stored.

Theorem C23_set_elsewhere : forall (T : Type) (r : raster T) row col v lyr,
  wf r -> ~ (emptied r /\ r_is2d r = true) -> ~ (stored r row col /\ layer_ok r lyr) ->
  SetValue r row col v lyr = Ok r.
Proof. exact @SetValue_not_stored. Qed.
Print Assumptions C23_set_elsewhere.

(** Reading is total. *)
Theorem C23_read_total : forall (T : Type) (r : raster T) row col lyr,
  wf r -> exists v, GetValue r row col lyr = Ok v.
Proof. exact @GetValue_total. Qed.
Print Assumptions C23_read_total.

(** Every history of SetValue, ReplaceNoData and SetCalcPositions calls shows
    the grid obtained by replaying the history on an abstract grid. *)
Theorem C23_history : forall (T : Type) (feq : T -> T -> bool) ops (r r' : raster T),
  full_grid r -> op_run feq ops r r' ->
  shows r' (fold_left (fun g o => spec_op feq o g) ops (grid_view r)).
Proof.
  intros T feq ops r r' Hf HR.
  exact (proj2 (history_refines feq ops r (grid_view r) r' (or_introl Hf) (grid_view_shows r Hf) HR)).
Qed.
Print Assumptions C23_history.

Theorem C23_history_progress : forall (T : Type) (feq : T -> T -> bool) ops (r : raster T),
  wf r -> r_is2d r = false -> exists r', op_run feq ops r r'.
Proof. exact @history_progress. Qed.
Print Assumptions C23_history_progress.

(** On a layered raster whose cells were all dropped, SetValue writes out of
    bounds instead of doing nothing. *)
Theorem C23_emptied_layers : forall (T : Type) (r : raster T) row col v lyr,
  emptied r -> r_is2d r = true -> inside r row col -> layer_ok r lyr ->
  SetValue r row col v lyr = UB.
Proof. exact @SetValue_emptied2d. Qed.
Print Assumptions C23_emptied_layers.

Theorem C23_emptied_layers_refuted : exists (r r' : raster Z) row col v lyr,
  full_grid r /\ SetCalcPositions Z.eqb [] r = Ok (r', true) /\ SetValue r' row col v lyr = UB.
Proof.
  exists (FromArray2D (Some [[-9999; 1]; [-9999; 2]]) 2 1 2 (-9999) (-9999) 1 0 0).
  eexists. exists 0, 1, 7, 1. split; [apply FromArray2D_full; cbn; try lia; repeat constructor|].
  split; vm_compute; reflexivity.
Qed.
Print Assumptions C23_emptied_layers_refuted.

Example C23_ex : exists r1 r2 r3, SetValue ex1 0 1 7 1 = Ok r1 /\
  SetCalcPositions Z.eqb [4;3;2;1;0]%nat r1 = Ok (r2, true) /\ SetValue r2 1 2 8 1 = Ok r3 /\
  GetValue r3 0 1 1 = Ok 7 /\ GetValue r3 1 2 1 = Ok 8 /\ SetValue r3 1 0 9 1 = Ok r3.
Proof. do 3 eexists. repeat (split; [vm_compute; reflexivity|]). vm_compute; reflexivity. Qed.

(** ** C24. *)
Theorem C24_replace : forall (T : Type) (feq : T -> T -> bool) (r : raster T) v,
  wf r -> feq (r_nodata r) (r_nodata r) = true -> exists r',
  (forall ord, schedule (r_ncells r) ord -> ReplaceNoData feq ord r v = Ok r') /\ wf r' /\
  r_nodata r' = v /\
  (forall row col lyr, exists x, GetValue r row col lyr = Ok x /\
     GetValue r' row col lyr = Ok (if feq x (r_nodata r) then v else x)).
Proof. exact @ReplaceNoData_reads. Qed.
Print Assumptions C24_replace.

(** Without assuming that NoData equals itself (a NaN NoData): stored cells are
    rewritten one by one, all others read as the new NoData. *)
Theorem C24_replace_general : forall (T : Type) (feq : T -> T -> bool) (r : raster T) v,
  wf r -> exists r',
  (forall ord, schedule (r_ncells r) ord -> ReplaceNoData feq ord r v = Ok r') /\
  wf r' /\ r_nodata r' = v /\ r_hnodata r' = v /\ r_default r' = v /\
  (forall row col lyr, exists x, GetValue r row col lyr = Ok x /\
     (stored r row col /\ layer_ok r lyr ->
        GetValue r' row col lyr = Ok (if feq x (r_nodata r) then v else x)) /\
     (~ (stored r row col /\ layer_ok r lyr) -> x = r_nodata r /\ GetValue r' row col lyr = Ok v)).
Proof. exact @ReplaceNoData_spec. Qed.
Print Assumptions C24_replace_general.

Example C24_ex : exists r, ReplaceNoData Z.eqb [5;0;3;1;2;4]%nat ex1 (-1) = Ok r /\
  r_data r = Some [1; -1; 3; -1; 5; 6] /\ r_nodata r = -1 /\ wf ex1.
Proof. eexists. split; [vm_compute; reflexivity|]. split; [vm_compute; reflexivity|]. split; [vm_compute; reflexivity|]. left. apply ex1_full. Qed.

(** ** C25. *)
Theorem C25_all_mapped : forall (T : Type) (toint : T -> option Z) (r : raster T) m,
  wf r ->
  (forall row col lyr x, stored r row col -> layer_ok r lyr -> GetValue r row col lyr = Ok x ->
     exists v, mapped toint m x v) ->
  exists r', Reclassify toint r m = (r', Ok tt) /\ wf r' /\ same_frame r r' /\
    (forall row col lyr x, stored r row col -> layer_ok r lyr -> GetValue r row col lyr = Ok x ->
       exists v, mapped toint m x v /\ GetValue r' row col lyr = Ok v) /\
    (forall row col lyr, ~ (stored r row col /\ layer_ok r lyr) -> GetValue r' row col lyr = Ok (r_nodata r)).
Proof. exact @Reclassify_ok. Qed.
Print Assumptions C25_all_mapped.

(** The first value that the table lacks makes the call throw; what comes
    before it in storage order is already rewritten, the rest is not. *)
Theorem C25_unmapped_throws : forall (T : Type) (toint : T -> option Z) (r : raster T) m i lyr x k,
  wf r -> 0 <= i < r_ncells r -> layer_ok r lyr ->
  GetValueByIndex r i lyr = Ok x -> toint x = Some k -> massoc m k = None ->
  (forall i' l', 0 <= i' < r_ncells r -> layer_ok r l' -> before i' l' i lyr ->
     exists x' v, GetValueByIndex r i' l' = Ok x' /\ mapped toint m x' v) ->
  exists r', Reclassify toint r m = (r', Throw) /\ same_frame r r' /\
    (forall i' l', 0 <= i' < r_ncells r -> layer_ok r l' ->
       (before i' l' i lyr -> exists x' v, GetValueByIndex r i' l' = Ok x' /\ mapped toint m x' v /\
                                            GetValueByIndex r' i' l' = Ok v) /\
       (~ before i' l' i lyr -> GetValueByIndex r' i' l' = GetValueByIndex r i' l')).
Proof. exact @Reclassify_throws. Qed.
Print Assumptions C25_unmapped_throws.

(** The intended treatment (NoData for unmapped values) is false. *)
Theorem C25_unmapped_nodata_refuted : exists (r : raster Z) m,
  full_grid r /\ snd (Reclassify Some r m) = Throw /\
  GetValueByIndex (fst (Reclassify Some r m)) 0 1 = Ok 100 /\
  GetValueByIndex (fst (Reclassify Some r m)) 2 1 = Ok 3.
Proof. exists ex1, [(1, 100); (3, 300)]. split; [apply ex1_full|]. repeat split. Qed.
Print Assumptions C25_unmapped_nodata_refuted.

Example C25_ex : fst (Reclassify Some (FromArray (Some [1; 2; 1]) 3 1 (-9999) 0 1 0 0) [(1, 7); (2, 8)])
  = FromArray (Some [7; 8; 7]) 3 1 (-9999) 0 1 0 0.
Proof. reflexivity. Qed.

(** ** C58. After dropping all cells the object cannot be destroyed. *)
Theorem C58_all_nodata_destroy : forall (T : Type) (feq : T -> T -> bool) (r : raster T),
  full_grid r ->
  (forall row col, inside r row col -> exists x, GetValue r row col 1 = Ok x /\ feq x (r_nodata r) = true) ->
  exists r', SetCalcPositions feq [] r = Ok (r', true) /\ r_ncells r' = 0 /\ Destroy r' = UB.
Proof. exact @all_nodata_destroy. Qed.
Print Assumptions C58_all_nodata_destroy.

(** As long as one cell remains, destruction is safe. *)
Theorem C58_destroy_ok : forall (T : Type) (r : raster T),
  full_grid r \/ (exists ix, compact r ix) -> Destroy r = Ok tt.
Proof. exact @destroy_ok. Qed.
Print Assumptions C58_destroy_ok.

Example C58_ex : exists r', SetCalcPositions Z.eqb [] (FromArray (Some [-9999; -9999]) 2 1 (-9999) 0 1 0 0) = Ok (r', true)
  /\ Destroy r' = UB.
Proof. eexists. split; vm_compute; reflexivity. Qed.
