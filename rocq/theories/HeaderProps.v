(** C154: setting the header of a raster. *)
From Coq Require Import ZArith QArith List Bool Lia String.
From Verif Require Import Base RasterModel RasterSpec ListLib RasterProofs StrModel MapModel MapProofs FloatModel CoordFloatModel GridfsModel HeaderModel HeaderSpec HeaderProofs.
Import ListNotations.
Open Scope Z_scope.

(** ** C154. A header of the same sizes moves the raster: the cells keep their values, only
    the coordinates and the NoData value are those of the header. *)
Theorem C154_same_size : forall (T : Type) (cast : f64 -> outcome T) refers h (r : raster T) x y cs nd, NoDup (map fst refers) ->
  says refers h cast (r_rows r) (r_cols r) (r_nlyrs r) (r_ncells r) x y cs nd -> full_grid r \/ (exists ix, RasterSpec.compact r ix) ->
  exists h' r', SetHeader cast refers h r = Ok (h', r') /\ (forall k, lookup h' (str k) = merged refers h k) /\
    (full_grid r -> full_grid r') /\ (forall ix, RasterSpec.compact r ix -> RasterSpec.compact r' ix) /\
    r_xll r' = q_of x /\ r_yll r' = q_of y /\ r_cs r' = q_of cs /\ r_nodata r' = nd /\
    (forall row col lyr, stored r row col -> layer_ok r lyr -> GetValue r' row col lyr = GetValue r row col lyr) /\
    (forall row col lyr, ~ stored r row col \/ ~ layer_ok r lyr -> GetValue r' row col lyr = Ok nd).
Proof.
  intros T cast refers h r x y cs nd N S SH. eexists. eexists. split; [apply (SetHeader_says cast refers h r _ _ _ _ _ _ _ _ N S)|]. split; [intros k; apply CopyMap_lookup, N|].
  split; [apply headed_full|]. split; [intros ix; apply headed_compact|]. do 4 (split; [reflexivity|]). split.
  - intros row col lyr. apply headed_stored. exact SH.
  - intros row col lyr. apply headed_not_stored. exact SH.
Qed.
Print Assumptions C154_same_size.

(** Expected with another NoData value: cells without data stay so. Not so for stored cells:
    they keep the old NoData value, which is now a value like others. *)
Theorem C154_nodata_refuted : forall (T : Type) (feq : T -> T -> bool) (cast : f64 -> outcome T) refers h (r : raster T) x y cs nd row col lyr v, NoDup (map fst refers) ->
  says refers h cast (r_rows r) (r_cols r) (r_nlyrs r) (r_ncells r) x y cs nd -> full_grid r \/ (exists ix, RasterSpec.compact r ix) ->
  stored r row col -> layer_ok r lyr -> GetValue r row col lyr = Ok v -> feq v (r_nodata r) = true -> feq v nd = false ->
  exists h' r', SetHeader cast refers h r = Ok (h', r') /\ IsNoData feq r row col lyr = Ok true /\ IsNoData feq r' row col lyr = Ok false.
Proof.
  intros T feq cast refers h r x y cs nd row col lyr v N S SH ST L G E1 E2. destruct (C154_same_size T cast refers h r x y cs nd N S SH) as (h' & r' & E & _ & _ & _ & _ & _ & _ & ND & K & _).
  exists h', r'. split; [exact E|]. unfold IsNoData. rewrite (K _ _ _ ST L), G, ND. cbn [obind]. rewrite E1, E2. auto.
Qed.
Print Assumptions C154_nodata_refuted.

(** Expected of any header: the raster has the cells it says. Not so: with other rows and
    columns the stored values are taken in another arrangement, and there is a cell in the
    new grid that cannot be read as soon as the new grid is larger. *)
Theorem C154_size_refuted : forall (T : Type) (cast : f64 -> outcome T) refers h (r : raster T) rows cols cells x y cs nd, NoDup (map fst refers) -> full_grid r ->
  says refers h cast rows cols (r_nlyrs r) cells x y cs nd -> 0 < rows -> 0 < cols ->
  exists h' r', SetHeader cast refers h r = Ok (h', r') /\ r_rows r' = rows /\ r_cols r' = cols /\
    (forall row col lyr, inside r' row col -> layer_ok r lyr -> row * cols + col < r_rows r * r_cols r ->
       GetValue r' row col lyr = GetValue r ((row * cols + col) / r_cols r) ((row * cols + col) mod r_cols r) lyr) /\
    (forall lyr, r_rows r * r_cols r < rows * cols -> layer_ok r lyr -> inside r' (rows - 1) (cols - 1) /\ GetValue r' (rows - 1) (cols - 1) lyr = UB).
Proof.
  intros T cast refers h r rows cols cells x y cs nd N F S R C. eexists. eexists. split; [apply (SetHeader_says cast refers h r _ _ _ _ _ _ _ _ N S)|]. do 2 (split; [reflexivity|]). split.
  - intros row col lyr [IR IC] L B. cbn [headed r_rows r_cols] in IR, IC. rewrite headed_read by assumption. destruct (Z.ltb_spec (row * cols + col) (r_rows r * r_cols r)); [reflexivity|lia].
  - intros lyr B L. split; [split; cbn [headed r_rows r_cols]; lia|]. rewrite headed_read by (assumption || lia). destruct (Z.ltb_spec ((rows - 1) * cols + (cols - 1)) (r_rows r * r_cols r)); [nia|reflexivity].
Qed.
Print Assumptions C154_size_refuted.

(** The same for layers: a layer that the header adds cannot be read in any cell of a raster
    of several layers, and in a raster of one layer it is that one again. *)
Theorem C154_layers_refuted : forall (T : Type) (cast : f64 -> outcome T) refers h (r : raster T) lyrs x y cs nd row col lyr, NoDup (map fst refers) -> full_grid r ->
  says refers h cast (r_rows r) (r_cols r) lyrs (r_ncells r) x y cs nd -> inside r row col -> r_nlyrs r < lyr <= lyrs ->
  exists h' r', SetHeader cast refers h r = Ok (h', r') /\ layer_ok r' lyr /\
    GetValue r' row col lyr = if r_is2d r then UB else GetValue r row col 1.
Proof.
  intros T cast refers h r lyrs x y cs nd row col lyr N F S I L. eexists. eexists. split; [apply (SetHeader_says cast refers h r _ _ _ _ _ _ _ _ N S)|]. destruct F as (R & C & LY & NC & ST & P & PI).
  assert (LK : layer_ok (headed r (r_rows r) (r_cols r) lyrs (r_ncells r) (q_of x) (q_of y) (q_of cs) nd) lyr) by (split; cbn [headed r_nlyrs]; lia). split; [exact LK|].
  pose proof (storage_valid _ _ ST) as V. assert (IN : ValidateRowCol r row col = true) by (apply vrc_true, I). apply vl_true in LK.
  unfold GetValue at 1. rewrite LK. match goal with |- context [ValidateRasterData ?q] => change (ValidateRasterData q) with (ValidateRasterData r); change (ValidateRowCol q row col) with (ValidateRowCol r row col) end.
  rewrite V, IN. cbn [headed r_calc r_pos r_posidx r_cols negb orb]. rewrite P, PI. cbn [isnull negb orb]. rewrite andb_false_r. unfold read_cell. cbn [headed r_is2d r_data r_data2d]. destruct I as [IR IC]. unfold storage in ST. destruct (r_is2d r) eqn:D2.
  - destruct ST as (d & E & LD & FD). rewrite E. cbn [deref obind]. destruct (aget d (row * r_cols r + col)) as [c| |] eqn:A; [|reflexivity|unfold aget in A; destruct (row * r_cols r + col <? 0); [discriminate A|]; destruct (nth_error d (Z.to_nat (row * r_cols r + col))); discriminate A].
    cbn [obind]. apply aget_inv in A. destruct A as [_ A]. pose proof (proj1 (Forall_forall _ _) FD c (nth_error_In _ _ A)) as LC. cbv beta in LC. unfold aget. destruct (lyr - 1 <? 0); [reflexivity|]. replace (nth_error c (Z.to_nat (lyr - 1))) with (@None T) by (symmetry; apply nth_error_None; lia). reflexivity.
  - destruct ST as (L1 & d & E & LD). unfold GetValue. rewrite V, IN. assert (V1 : ValidateLayer r 1 = true) by (apply vl_true; split; lia). rewrite V1, P, PI. cbn [isnull negb orb]. rewrite andb_false_r. unfold read_cell. rewrite D2. reflexivity.
Qed.
Print Assumptions C154_layers_refuted.

(** A grid of two rows and three columns, moved, and said to have three rows and two columns,
    or three of each. *)
Definition hd_grid : raster Z := FromArray (Some [1; 2; 3; 4; 5; 6]) 3 2 (-9999) (-9999) 10 0 0.
Definition hd_of (rows cols : Z) (x : f64) : smap f64 :=
  [(str "NROWS", of_int rows); (str "NCOLS", of_int cols); (str "XLLCENTER", x); (str "YLLCENTER", of_int 0); (str "CELLSIZE", of_int 10);
   (str "NODATA_VALUE", of_int (-9999)); (str "LAYERS", of_int 1); (str "CELLSNUM", of_int (rows * cols))].
Definition hd_value (refers : smap f64) (row col : Z) : outcome Z :=
  match SetHeader f_int refers (hd_of 2 3 (of_int 0)) hd_grid with Ok (_, r) => GetValue r row col 1 | _ => Throw end.
Example C154_ex : map (fun c => hd_value [(str "XLLCENTER", of_int 100)] (fst c) (snd c)) [(0, 0); (1, 2); (2, 0)] = [Ok 1; Ok 6; Ok (-9999)] /\
  map (fun c => hd_value (hd_of 3 2 (of_int 0)) (fst c) (snd c)) [(0, 0); (1, 0); (2, 1)] = [Ok 1; Ok 3; Ok 6] /\
  map (fun c => hd_value (hd_of 3 3 (of_int 0)) (fst c) (snd c)) [(1, 2); (2, 2)] = [Ok 6; UB].
Proof. repeat split; vm_compute; reflexivity. Qed.
Example C154_says_ex : says [(str "XLLCENTER", of_int 100)] (hd_of 2 3 (of_int 0)) f_int 2 3 1 6 (of_int 100) (of_int 0) (of_int 10) (-9999) /\ full_grid hd_grid.
Proof.
  split.
  - unfold says. do 4 (split; [reflexivity|]). do 2 (split; [left; reflexivity|]). split; [reflexivity|]. split; [exists (of_int (-9999)); split; [reflexivity|vm_compute; reflexivity]|]. intros z I. cbn in I. lia.
  - repeat split; try reflexivity; try (cbn; lia). exists [1; 2; 3; 4; 5; 6]. split; reflexivity.
Qed.
(** A header with corners. *)
Definition hd_corner : smap f64 :=
  [(str "NROWS", of_int 2); (str "NCOLS", of_int 3); (str "XLLCORNER", of_int 95); (str "YLLCORNER", of_int 20); (str "CELLSIZE", of_int 10);
   (str "NODATA_VALUE", of_int (-9999)); (str "LAYERS", of_int 1); (str "CELLSNUM", of_int 6)].
Example C154_corner_ex : says [] hd_corner f_int 2 3 1 6 (of_int 100) (of_int 25) (of_int 10) (-9999).
Proof.
  unfold says. do 4 (split; [reflexivity|]).
  split; [right; split; [reflexivity|]; exists (of_int 95); split; [reflexivity|apply Flocq.IEEE754.BinarySingleNaN.B2SF_inj; vm_compute; reflexivity]|].
  split; [right; split; [reflexivity|]; exists (of_int 20); split; [reflexivity|apply Flocq.IEEE754.BinarySingleNaN.B2SF_inj; vm_compute; reflexivity]|].
  split; [reflexivity|]. split; [exists (of_int (-9999)); split; [reflexivity|vm_compute; reflexivity]|]. intros z I. cbn in I. lia.
Qed.
(** A grid with a NoData cell, and a header with another NoData value. *)
Definition hd_holes : raster Z := FromArray (Some [1; -9999; 3; 4; 5; 6]) 3 2 (-9999) (-9999) 10 0 0.
Example C154_nodata_ex : IsNoData Z.eqb hd_holes 0 1 1 = Ok true /\
  match SetHeader f_int [(str "NODATA_VALUE", of_int (-1))] (hd_of 2 3 (of_int 0)) hd_holes with
  | Ok (_, r) => (IsNoData Z.eqb r 0 1 1, GetValue r 0 1 1, GetValue r 5 5 1) = (Ok false, Ok (-9999), Ok (-1)) | _ => False end.
Proof. split; vm_compute; reflexivity. Qed.
