(** Files by their names: what comes back from GeoTIFF files. *)
From Coq Require Import ZArith QArith Reals Lia Lra Ascii String List Bool.
From Flocq Require Import Core BinarySingleNaN.
From Verif Require Import Base ListLib StrModel StrSpec StrProofs MapModel MapProofs BasicModel FloatModel FloatProofs TypeModel CoordFloatModel CoordFloatSpec CoordFloatProofs
  NumModel FsModel FsSpec FsProofs RasterModel RasterSpec RasterProofs RasterProofs2 CopyModel AscModel AscSpec MongoModel CellModel CellSpec GridfsModel GdalModel GdalSpec GdalProofs GdalProofs2 GdalProofs3 GdalProps GdalProps2
  LayersModel LayersSpec LayersProofs LayersProofs2 LayersProofs3 LayersProofs4 LayersProps DiskModel DiskSpec DiskProofs.
Import List ListNotations.
Open Scope Z_scope.
Open Scope outcome_scope.

(** ** One file *)
Section Single.
Variables (o : os) (exist : bytes -> bool) (read : bytes -> smap f64 -> outcome layer_read) (s : rdt) (file : bytes) (l0 : flayer) (nd : num).
Variables (calc : bool) (dflt nv : num) (order1 : list nat) (orders : nat -> list nat).
Hypotheses (EX : exist file = true) (GI : gives (read file start) l0) (P : proper l0) (CV : cvt s (VD (fl_nodata l0)) = Ok nd)
  (OR : any_order l0 nd calc order1 orders).

Lemma single : exists h r core path, ReadFromFiles o exist read s order1 orders [file] calc dflt nv = Ok (true, Some (mkLayered h r core path)) /\
  r_rows r = fg_rows (fl_geo l0) /\ r_cols r = fg_cols (fl_geo l0) /\ r_nlyrs r = 1 /\ r_nodata r = nd /\ header_of h (fl_geo l0) (fl_nodata l0) /\
  forall i j v, file_value l0 i j v -> GetValue r i j 1 = Ok (if calc && cells_equal v nd then nd else v).
Proof.
  destruct GI as (h & RD & HH & HL & HC).
  assert (C : ConstructFromSingleFile read s order1 file calc dflt nv 1 = Ok (true, UpdateMap h K_CELLSNUM (of_int (r_ncells (first_raster l0 nd calc dflt nv 1))), Some (first_raster l0 nd calc dflt nv 1))).
  { apply (construct s l0 nd h calc dflt nv 1 P CV ltac:(lia) HH HL HC read order1 file RD). intros CT. unfold any_order in OR. rewrite CT in OR. apply OR. }
  unfold ReadFromFiles. cbn [FilesExist forallb]. rewrite EX. cbn [andb negb]. change (Z.of_nat (List.length [file])) with 1. cbn zeta. unfold ReadFromFile. rewrite EX. cbn [negb]. rewrite C. cbn [obind option_map].
  eexists _, _, _, _. split; [reflexivity|].
  assert (FG : r_rows (first_raster l0 nd calc dflt nv 1) = fg_rows (fl_geo l0) /\ r_cols (first_raster l0 nd calc dflt nv 1) = fg_cols (fl_geo l0) /\
     r_nlyrs (first_raster l0 nd calc dflt nv 1) = 1 /\ r_nodata (first_raster l0 nd calc dflt nv 1) = nd) by (unfold first_raster; destruct calc; repeat split; reflexivity).
  destruct FG as (F1 & F2 & F3 & F4). repeat (split; [assumption|]). split; [apply header_update; [exact HH|left; reflexivity]|].
  intros i j v (I & J & NV).
  assert (FP : full_grid (plain l0 nd calc dflt nv)) by (apply plain_full; exact P).
  assert (IN : inside (plain l0 nd calc dflt nv) i j) by (split; assumption).
  assert (LO : layer_ok (plain l0 nd calc dflt nv) 1) by (unfold layer_ok; change (r_nlyrs (plain l0 nd calc dflt nv)) with 1; lia).
  assert (KB : 0 <= i * fg_cols (fl_geo l0) + j < fg_rows (fl_geo l0) * fg_cols (fl_geo l0)) by nia.
  assert (GP : GetValue (plain l0 nd calc dflt nv) i j 1 = Ok v).
  { rewrite GetValue_full by assumption. change (r_cols (plain l0 nd calc dflt nv)) with (fg_cols (fl_geo l0)). rewrite read_plain; [|exact P|exact KB].
    rewrite (nth_error_nth _ _ _ NV). reflexivity. }
  unfold first_raster. destruct calc eqn:CT; cbn [andb]; [|exact GP].
  assert (ES : shrunk l0 nd dflt nv 1 = compacted cells_equal (plain l0 nd true dflt nv)).
  { unfold compacted. rewrite numbers_valid by exact P. rewrite (concat_single _ (fun k => nth (Z.to_nat k) (fl_vals l0) nd)).
    - unfold shrunk. destruct (Z.of_nat (List.length (numbers l0 nd)) <=? 0); reflexivity.
    - intros k K. unfold numbers in K. apply filter_In in K. destruct K as [K _]. apply zseq_mem in K.
      unfold row_of. cbn [plain raw set_ncells r_is2d r_data]. destruct P as (_ & _ & L). rewrite (nth_error_nth' _ nd) by lia. reflexivity. }
  rewrite ES. destruct (GetValue_compacted cells_equal _ i j 1 FP IN LO) as (x1 & x & X1 & X & G). rewrite G. rewrite GP in X1, X. injection X1 as <-. injection X as <-. reflexivity.
Qed.
End Single.

(** ** Any number of files on one grid *)
Lemma read_all (o : os) exist read s file others l0 ls nd calc dflt nv order1 orders :
  FilesExist exist (file :: others) = true -> gives (read file start) l0 -> proper l0 -> cvt s (VD (fl_nodata l0)) = Ok nd ->
  Forall2 (fun f l => gives (read f []) l) others ls -> (forall l, In l ls -> proper l /\ fl_geo l = fl_geo l0) -> any_order l0 nd calc order1 orders ->
  exists h r core path, ReadFromFiles o exist read s order1 orders (file :: others) calc dflt nv = Ok (true, Some (mkLayered h r core path)) /\
  r_rows r = fg_rows (fl_geo l0) /\ r_cols r = fg_cols (fl_geo l0) /\ r_nlyrs r = Z.of_nat (List.length (file :: others)) /\ r_nodata r = nd /\
  header_of h (fl_geo l0) (fl_nodata l0) /\
  forall i j v, file_value l0 i j v ->
    (cells_equal v nd = false -> GetValue r i j 1 = Ok v /\
       forall n l w, nth_error ls n = Some l -> file_value l i j w -> GetValue r i j (Z.of_nat n + 2) = Ok (if FloatEqual (as_double w) (fl_nodata l) then nd else w)) /\
    (cells_equal v nd = true -> (exists w, GetValue r i j 1 = Ok w /\ (w = v \/ w = nd)) /\
       forall lyr, 2 <= lyr <= Z.of_nat (List.length (file :: others)) -> GetValue r i j lyr = Ok nd).
Proof.
  intros EX G0 P0 CV GS SG OR. destruct others as [|f2 others].
  - inversion GS; subst. assert (EF : exist file = true) by (cbn [FilesExist forallb] in EX; destruct (exist file); [reflexivity|discriminate]).
    destruct (single o exist read s file l0 nd calc dflt nv order1 orders EF G0 P0 CV OR) as (h & r & core & path & E & R & C & L & N & HO & V).
    exists h, r, core, path. split; [exact E|]. split; [exact R|]. split; [exact C|]. split; [exact L|]. split; [exact N|]. split; [exact HO|].
    intros i j v FV. pose proof (V i j v FV) as GV. split.
    + intros CE. rewrite CE, andb_false_r in GV. split; [exact GV|]. intros n l w X. destruct n; discriminate.
    + intros CE. split; [|intros lyr X; cbn [List.length] in X; lia]. destruct (calc && cells_equal v nd); eauto.
  - set (others' := f2 :: others) in *.
    assert (SEEN : forall i j v, file_value l0 i j v -> forall l, In l ls -> forall w, file_value l i j w ->
       seen l nd (fst (fCoordinate (fl_geo l0) i j)) (snd (fCoordinate (fl_geo l0) i j)) (if FloatEqual (as_double w) (fl_nodata l) then nd else w)).
    { intros i j v (I & J & _) l IL w FW. left. destruct (SG l IL) as [_ EG]. exists i, j, w. rewrite EG. destruct (fcentre (fl_geo l0) i j (proj1 (proj2 P0)) I J) as (WI & X & Y). auto. }
    assert (RD : LayersProps.readable exist read s file others' l0 ls nd).
    { split; [exact EX|]. split; [discriminate|]. repeat (split; [assumption|]). split; [apply Forall_forall; intros l IL; apply SG; exact IL|].
      intros i j v FV _ l IL. destruct (SG l IL) as [PL EG]. pose proof FV as (I & J & _). destruct PL as (_ & _ & LN).
      destruct (nth_error (fl_vals l) (Z.to_nat (i * fg_cols (fl_geo l) + j))) as [w|] eqn:E.
      - cbv zeta. exists (if FloatEqual (as_double w) (fl_nodata l) then nd else w). apply (SEEN i j v FV l IL w). split; [rewrite EG; exact I|]. split; [rewrite EG; exact J|exact E].
      - apply nth_error_None in E. rewrite EG in E, LN. nia. }
    destruct (C93_layers o exist read s file others' l0 ls nd calc dflt nv order1 orders RD OR) as (h & r & core & path & E & _ & R & C & L & N & HO & _ & VAL).
    exists h, r, core, path. split; [exact E|]. split; [exact R|]. split; [exact C|]. split; [exact L|]. split; [exact N|]. split; [exact HO|].
    intros i j v FV. destruct (VAL i j v FV) as [V1 V2]. split; [|exact V2]. intros CE. destruct (V1 CE) as [G1 GN]. split; [exact G1|].
    intros n l w EL FW. apply (GN n l _ EL). apply (SEEN i j v FV l (nth_error_In _ _ EL) w FW).
Qed.

(** ** The grid read from a GeoTIFF *)
Definition back_geo (rows cols : Z) (x y cs : f64) : fgeo := mkFgeo rows cols (read_x (geo rows x y cs)) (read_y (geo rows x y cs) rows) cs.

Lemma tidy_back g35 g37 s ord made moved h opts cols rows x y cs nd vs f minmax header out :
  header_shows h cols rows x y cs nd -> grid_size rows cols -> tidy_grid x y cs ->
  WriteSingleGeotiff g35 g37 s ord made moved h opts vs = Ok (Some f) ->
  ReadRasterFileByGdal g35 g37 s (Some f) minmax true header None RDT_Unknown [] = Ok out -> g_ok out = true ->
  sane (back_geo rows cols x y cs) /\ is_finite (read_x (geo rows x y cs)) = true /\ is_finite (read_y (geo rows x y cs) rows) = true /\
  (Rabs (B2R (read_x (geo rows x y cs)) - B2R x) <= bpow radix2 (-10) * B2R cs)%R /\ (Rabs (B2R (read_y (geo rows x y cs) rows) - B2R y) <= bpow radix2 (-10) * B2R cs)%R.
Proof.
  intros HS G (FX & FY & FC & (C1 & C2) & BX & BY) W RD OKF. pose proof G as (GR & GC & GN).
  assert (RB : 1 <= rows <= 2 ^ 31) by (unfold INT_MAX in GN; nia). assert (CB : 1 <= cols <= 2 ^ 31) by (unfold INT_MAX in GN; nia).
  assert (RR : (1 <= IZR rows <= bpow radix2 31)%R).
  { split; [apply (IZR_le 1); lia|]. change (bpow radix2 31) with (IZR (2 ^ 31)). apply IZR_le. lia. }
  assert (CP : (0 < B2R cs)%R) by (pose proof (bpow_gt_0 radix2 (-30)); lra).
  set (K := (bpow radix2 39 * B2R cs + bpow radix2 31 * B2R cs + bpow radix2 31 * B2R cs)%R).
  assert (K1 : (1 <= K)%R).
  { assert ((1 <= bpow radix2 31 * B2R cs)%R). { replace 1%R with (bpow radix2 31 * bpow radix2 (-31))%R by (rewrite <- bpow_plus; reflexivity). apply Rmult_le_compat_l; [apply bpow_ge_0|]. apply Rle_trans with (2 := C1). apply bpow_le. lia. }
    unfold K. assert (0 <= bpow radix2 39 * B2R cs)%R by (apply Rmult_le_pos; [apply bpow_ge_0|lra]). lra. }
  assert (KS : (K <= bpow radix2 40 * B2R cs)%R).
  { unfold K. rewrite <- !Rmult_plus_distr_r. apply Rmult_le_compat_r; [lra|].
    change (bpow radix2 39) with (IZR (2 ^ 39)). change (bpow radix2 31) with (IZR (2 ^ 31)). change (bpow radix2 40) with (IZR (2 ^ 40)). rewrite <- !plus_IZR. apply IZR_le. lia. }
  assert (KB : (K <= bpow radix2 990)%R).
  { apply Rle_trans with (1 := KS). apply Rle_trans with (bpow radix2 40 * bpow radix2 900)%R; [apply Rmult_le_compat_l; [apply bpow_ge_0|exact C2]|]. rewrite <- bpow_plus. apply bpow_le. lia. }
  assert (C31 : (0 <= bpow radix2 31 * B2R cs)%R) by (apply Rmult_le_pos; [apply bpow_ge_0|lra]).
  assert (AC : Rabs (B2R cs) = B2R cs) by (apply Rabs_pos_eq; lra).
  assert (CL : (B2R cs <= bpow radix2 31 * B2R cs)%R) by (rewrite <- (Rmult_1_l (B2R cs)) at 1; apply Rmult_le_compat_r; lra).
  destruct (C47_close g35 g37 s s ord made moved h opts cols rows x y cs nd vs f minmax header None RDT_Unknown [] out K HS G FX FY FC (conj K1 KB)) as (x' & y' & nd' & HR & FX' & FY' & EX & EY).
  { rewrite AC. unfold K. lra. }
  { rewrite AC. assert (IZR rows * B2R cs <= bpow radix2 31 * B2R cs)%R by (apply Rmult_le_compat_r; lra). unfold K. lra. }
  { exact W. } { exact RD. } { exact OKF. }
  pose proof (written_geo _ _ _ _ _ _ _ _ _ _ _ _ _ _ _ _ HS G W) as GE.
  destruct (read_geo _ _ _ _ _ _ _ _ _ _ _ _ _ _ _ GE G RD OKF) as (nd2 & ((_ & _ & HX & HY & _) & _) & _). destruct HR as ((_ & _ & HX' & HY' & _) & _).
  rewrite HX in HX'. injection HX' as <-. rewrite HY in HY'. injection HY' as <-.
  assert (EK0 : (bpow radix2 (-50) * K <= bpow radix2 (-10) * B2R cs)%R).
  { apply Rle_trans with (bpow radix2 (-50) * (bpow radix2 40 * B2R cs))%R; [apply Rmult_le_compat_l; [apply bpow_ge_0|exact KS]|]. rewrite <- Rmult_assoc, <- bpow_plus. apply Rle_refl. }
  assert (EK : (bpow radix2 (-50) * K <= B2R cs)%R).
  { apply Rle_trans with (1 := EK0).
    rewrite <- (Rmult_1_l (B2R cs)) at 2. apply Rmult_le_compat_r; [lra|]. apply (bpow_le radix2 _ 0). lia. }
  assert (M : forall a b, (Rabs (a - b) <= bpow radix2 (-50) * K)%R -> (Rabs b <= bpow radix2 39 * B2R cs)%R -> (Rabs a <= IZR (2 ^ 40) * B2R cs)%R).
  { intros a b A B. replace a with ((a - b) + b)%R by lra. apply Rle_trans with (1 := Rabs_triang _ _). apply Rle_trans with (B2R cs + bpow radix2 39 * B2R cs)%R; [lra|].
    rewrite <- (Rmult_1_l (B2R cs)) at 1. rewrite <- Rmult_plus_distr_r. apply Rmult_le_compat_r; [lra|]. change (bpow radix2 39) with (IZR (2 ^ 39)). rewrite <- (plus_IZR 1). apply IZR_le. lia. }
  split; [|split; [exact FX'|]; split; [exact FY'|]; split; [exact (Rle_trans _ _ _ EX EK0)|exact (Rle_trans _ _ _ EY EK0)]].
  unfold sane, back_geo. cbn [fg_xll fg_yll fg_cs fg_rows fg_cols]. split; [exact FX'|]. split; [exact FY'|]. split; [exact FC|].
  split; [split; [apply Rle_trans with (2 := C1); apply bpow_le; lia|exact C2]|]. split; [apply (M _ _ EX BX)|]. split; [apply (M _ _ EY BY)|]. split; nia.
Qed.

Definition read_tif (g35 g37 : bool) (s : rdt) (f : tif) (mm : option (f64 * f64)) (header : smap f64) : outcome layer_read :=
  let* g := ReadRasterFileByGdal g35 g37 s (Some f) mm true header None RDT_Unknown [] in Ok (g_ok g, g_header g, g_values g).

Lemma tif_gives g35 g37 s ord h opts cols rows x y cs nd vs f minmax header :
  header_shows h cols rows x y cs nd -> grid_size rows cols -> tidy_grid x y cs ->
  asks_nothing opts \/ asks opts s -> available g35 s -> s <> RDT_Int8 -> Forall (of_type s) vs -> Z.of_nat (List.length vs) = rows * cols ->
  WriteSingleGeotiff g35 g37 s ord true true h opts (Some vs) = Ok (Some f) -> (f_type f = GDT_Byte -> minmax_ok f minmax) ->
  let l := mkFlayer (back_geo rows cols x y cs) nd vs in gives (read_tif g35 g37 s f minmax header) l /\ proper l /\
  is_finite (read_x (geo rows x y cs)) = true /\ is_finite (read_y (geo rows x y cs) rows) = true /\
  (Rabs (B2R (read_x (geo rows x y cs)) - B2R x) <= bpow radix2 (-10) * B2R cs)%R /\ (Rabs (B2R (read_y (geo rows x y cs) rows) - B2R y) <= bpow radix2 (-10) * B2R cs)%R.
Proof.
  intros HS G TD AO AV N8 FV LV W MM l.
  destruct (C81_round_trip g35 g37 s ord h opts cols rows x y cs nd vs HS G AO AV N8 FV LV) as (f' & W' & RD). assert (f' = f) by congruence. subst f'.
  destruct (RD minmax header None RDT_Unknown [] MM) as (out & E & OKF & VS & _ & _ & ND & CS).
  pose proof (written_geo _ _ _ _ _ _ _ _ _ _ _ _ _ _ _ _ HS G W) as GE.
  destruct (read_geo _ _ _ _ _ _ _ _ _ _ _ _ _ _ _ GE G E OKF) as (nd2 & ((H1 & H2 & H3 & H4 & H5 & H6) & H7 & H8 & _) & _).
  split.
  - exists (g_header out). unfold read_tif. rewrite E. cbn [obind]. rewrite OKF, VS. split; [reflexivity|]. split; [|split; [exact H7|]].
    + unfold header_of, l, back_geo. cbn [fl_geo fl_nodata fg_rows fg_cols fg_xll fg_yll fg_cs]. repeat (split; [assumption|]). exact ND.
    + unfold l, back_geo. cbn [fl_geo fg_rows fg_cols]. rewrite Z.mul_comm. exact H8.
  - destruct (tidy_back g35 g37 s ord true true h opts cols rows x y cs nd (Some vs) f minmax header out HS G TD W E OKF) as (SA & B). split; [|exact B].
    split; [exact G|]. split; [exact SA|exact LV].
Qed.
