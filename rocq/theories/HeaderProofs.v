From Coq Require Import ZArith QArith List Bool Lia String ZifyBool.
From Verif Require Import Base RasterModel RasterSpec ListLib RasterProofs StrModel MapModel MapProofs FloatModel CoordFloatModel CopyModel AscModel AscProofs2 GridfsModel ShareProofs2 ShareProofs4 HeaderModel HeaderSpec.
Import ListNotations.
Open Scope Z_scope.

Definition headed {T} (r : raster T) rows cols lyrs cells (x y cs : Q) (nd : T) : raster T :=
  mkRaster rows cols x y cs nd cells lyrs cells lyrs nd (r_default r) (r_is2d r) (r_data r) (r_data2d r)
           (r_pos r) (r_posidx r) (r_calc r) (r_store r) (r_maskext r) (r_init r).

Lemma SetHeader_says {T} (cast : f64 -> outcome T) refers h r rows cols lyrs cells x y cs nd : NoDup (map fst refers) ->
  says refers h cast rows cols lyrs cells x y cs nd ->
  SetHeader cast refers h r = Ok (CopyMap refers h, headed r rows cols lyrs cells (q_of x) (q_of y) (q_of cs) nd).
Proof.
  intros N (H1 & H2 & H3 & H4 & H5 & H6 & H7 & (d & H8 & HC) & RG).
  assert (L : forall k, lookup (CopyMap refers h) (str k) = merged refers h k) by (intros k; apply CopyMap_lookup, N).
  assert (CT : forall ce co v, centre_at refers h ce co v cs -> GetCenter (CopyMap refers h) (str ce) (str co) = Ok v).
  { intros ce co v E. unfold GetCenter, at_get, K_CELLSIZE. rewrite !L, H7. destruct E as [->|(-> & c & -> & ->)]; reflexivity. }
  apply CT in H5. apply CT in H6. unfold SetHeader, entry, at_get. cbv zeta. unfold K_CELLSNUM, K_LAYERS, K_NODATA, K_NROWS, K_NCOLS, K_XLL, K_YLL, K_XLLCOR, K_YLLCOR, K_CELLSIZE.
  rewrite H5, H6, !L, H1, H2, H3, H4, H7, H8, HC. cbn [obind].
  assert (I : forall z, In z [rows; cols; lyrs; cells] -> f_int (of_int z) = Ok z) by (intros z Z; apply f_int_of_int; exact (RG z Z)).
  rewrite !I by (cbn; tauto). reflexivity.
Qed.

Section V.
Context {T : Type}.
Variables (r : raster T) (x y cs : Q) (nd : T).
Notation r' := (headed r (r_rows r) (r_cols r) (r_nlyrs r) (r_ncells r) x y cs nd).

Lemma headed_storage n : storage r n -> storage r' n. Proof. intros H; exact H. Qed.
Lemma headed_full : full_grid r -> full_grid r'. Proof. intros H; exact H. Qed.
Lemma headed_compact ix : RasterSpec.compact r ix -> RasterSpec.compact r' ix. Proof. intros H; exact H. Qed.
Lemma headed_get row col lyr : GetValue r' row col lyr = GetValue r row col lyr \/ GetValue r' row col lyr = Ok nd /\ GetValue r row col lyr = Ok (r_nodata r).
Proof.
  unfold GetValue. change (ValidateRasterData r') with (ValidateRasterData r). change (ValidateRowCol r' row col) with (ValidateRowCol r row col). change (ValidateLayer r' lyr) with (ValidateLayer r lyr).
  destruct (negb _ || _ || _); [right; auto|]. change (GetPosition r' row col) with (GetPosition r row col). cbn [headed r_calc r_pos r_posidx r_cols r_nodata].
  destruct (r_calc r && _).
  - destruct (GetPosition r row col) as [i| |]; cbn [obind]; auto. destruct (i <? 0); [auto|]. unfold GetValueByIndex.
    change (ValidateRasterData r') with (ValidateRasterData r). change (ValidateIndex r' i) with (ValidateIndex r i). change (ValidateLayer r' lyr) with (ValidateLayer r lyr).
    destruct (negb _ || _ || _); [right; auto|left; reflexivity].
  - left. reflexivity.
Qed.
Lemma headed_stored row col lyr : full_grid r \/ (exists ix, RasterSpec.compact r ix) -> stored r row col -> layer_ok r lyr -> GetValue r' row col lyr = GetValue r row col lyr.
Proof.
  intros SH ST LY. destruct (stored_position r row col SH ST) as (i & EP & BI & _). pose proof (shape_storage r SH) as SG. pose proof (storage_valid _ _ SG) as V. destruct ST as [IN _].
  apply vrc_true in IN. apply vl_true in LY. unfold GetValue. change (ValidateRasterData r') with (ValidateRasterData r). change (ValidateRowCol r' row col) with (ValidateRowCol r row col). change (ValidateLayer r' lyr) with (ValidateLayer r lyr).
  rewrite V, IN, LY. cbn [negb orb]. change (GetPosition r' row col) with (GetPosition r row col). cbn [headed r_calc r_pos r_posidx r_cols r_nodata]. destruct (r_calc r && _); [|reflexivity].
  rewrite EP. cbn [obind]. replace (i <? 0) with false by lia. unfold GetValueByIndex. change (ValidateRasterData r') with (ValidateRasterData r). change (ValidateIndex r' i) with (ValidateIndex r i). change (ValidateLayer r' lyr) with (ValidateLayer r lyr).
  rewrite V, LY. unfold ValidateIndex. replace ((i <? 0) || (r_ncells r <=? i)) with false by lia. reflexivity.
Qed.
Lemma headed_outside row col lyr : ~ inside r row col \/ ~ layer_ok r lyr -> GetValue r' row col lyr = Ok nd.
Proof.
  intros H. unfold GetValue. change (ValidateRowCol r' row col) with (ValidateRowCol r row col). change (ValidateLayer r' lyr) with (ValidateLayer r lyr).
  destruct H as [H|H].
  - destruct (ValidateRowCol r row col) eqn:E; [apply vrc_true in E; contradiction|]. cbn [negb]. rewrite orb_true_r. reflexivity.
  - destruct (ValidateLayer r lyr) eqn:E; [apply vl_true in E; contradiction|]. cbn [negb]. rewrite orb_true_r. reflexivity.
Qed.
Lemma headed_not_stored row col lyr : full_grid r \/ (exists ix, RasterSpec.compact r ix) -> ~ stored r row col \/ ~ layer_ok r lyr -> GetValue r' row col lyr = Ok nd.
Proof.
  intros SH H. destruct (ValidateRowCol r row col) eqn:E; [|apply headed_outside; left; intros I; apply vrc_true in I; congruence]. apply vrc_true in E.
  destruct (ValidateLayer r lyr) eqn:Q; [|apply headed_outside; right; intros I; apply vl_true in I; congruence]. apply vl_true in Q.
  destruct H as [H|H]; [|contradiction]. destruct SH as [F|(ix & C)]; [exfalso; apply H; split; auto|].
  destruct (GetValue_compact r' ix row col lyr (headed_compact ix C) E Q) as [(m & _ & B & K & _)|(_ & _ & G)]; [|exact G].
  exfalso. apply H. split; [exact E|]. right. exists ix. split; [exact C|]. exact (nth_error_In _ _ K).
Qed.
End V.

(** Other rows and columns of a complete grid. *)
Lemma headed_read {T} (r : raster T) rows cols cells x y cs (nd : T) row col lyr : full_grid r -> 0 <= row < rows -> 0 <= col < cols -> layer_ok r lyr ->
  GetValue (headed r rows cols (r_nlyrs r) cells x y cs nd) row col lyr =
  if row * cols + col <? r_rows r * r_cols r then GetValue r ((row * cols + col) / r_cols r) ((row * cols + col) mod r_cols r) lyr else UB.
Proof.
  intros (R & C & LY & N & ST & P & PI) BR BC BL. set (k := row * cols + col). assert (K : 0 <= k) by (unfold k; nia). pose proof (storage_valid _ _ ST) as V.
  assert (L : ValidateLayer r lyr = true) by (apply vl_true, BL).
  unfold GetValue at 1. match goal with |- context [ValidateRasterData ?q] => change (ValidateRasterData q) with (ValidateRasterData r); change (ValidateLayer q lyr) with (ValidateLayer r lyr) end.
  rewrite V, L. unfold ValidateRowCol. cbn [headed r_rows r_cols r_calc r_pos r_posidx]. replace ((row <? 0) || (rows <=? row) || ((col <? 0) || (cols <=? col))) with false by lia. rewrite P, PI. cbn [isnull negb orb]. rewrite andb_false_r.
  change (read_cell (headed r rows cols (r_nlyrs r) cells x y cs nd) (row * cols + col) lyr) with (read_cell r k lyr).
  destruct (k <? r_rows r * r_cols r) eqn:Q.
  - unfold GetValue. assert (IN : inside r (k / r_cols r) (k mod r_cols r)) by (split; [split; [apply Z.div_pos; lia|apply Z.div_lt_upper_bound; nia]|apply Z.mod_pos_bound; lia]).
    apply vrc_true in IN. rewrite V, IN, L, P, PI. cbn [isnull negb orb]. rewrite andb_false_r. f_equal. rewrite Z.mul_comm. apply Z.div_mod. lia.
  - unfold read_cell. unfold storage in ST. destruct (r_is2d r).
    + destruct ST as (d & -> & LD & _). cbn [deref obind]. unfold aget. destruct (k <? 0); [reflexivity|]. replace (nth_error d (Z.to_nat k)) with (@None (list T)) by (symmetry; apply nth_error_None; lia). reflexivity.
    + destruct ST as (_ & d & -> & LD). cbn [deref obind]. unfold aget. destruct (k <? 0); [reflexivity|]. replace (nth_error d (Z.to_nat k)) with (@None T) by (symmetry; apply nth_error_None; lia). reflexivity.
Qed.
