(** Files by their names: under which names a raster is written, and what is
    read from the files written. *)
From Coq Require Import ZArith QArith Reals Lia Lra Ascii String List Bool Permutation.
From Flocq Require Import Core BinarySingleNaN.
From Verif Require Import Base ListLib StrModel StrSpec StrProofs MapModel MapProofs BasicModel FloatModel FloatProofs TypeModel CoordFloatModel CoordFloatSpec CoordFloatProofs
  NumModel NumSpec NumProofs FsModel FsSpec FsProofs RasterModel RasterSpec RasterProofs RasterProofs2 RasterProofs3 CopyModel AscModel AscSpec AscProofs AscProofs2 AscProofs3 AscProofs4 MongoModel CellModel CellSpec
  GdalModel GdalSpec GdalProofs GdalProps GdalProps2 LayersModel LayersSpec LayersProofs LayersProofs2 DiskModel DiskSpec DiskProofs DiskProofs2 DiskProofs3 DiskProofs4.
Import List ListNotations.
Open Scope Z_scope.
Open Scope outcome_scope.

(** * C135: the names of the files *)

(** Whatever the operating system allows: the files written are the first ones
    of those the raster asks for, and all of them when the call returns [true]. *)
Theorem C135_names : forall gdal g35 g37 asserts s ord1 ord2 ord opened made moved o h opts (r : raster num) f a d core suf suf' n r' ok files,
  named o f a d core suf -> dir_form o d -> written_suffix gdal suf suf' -> settled o (file_name d core suf') -> first_number suf' n ->
  OutputToFile gdal g35 g37 asserts s ord1 ord2 ord opened made moved o h opts r f = Ok (r', ok, files) ->
  exists missing, names_of r' d core suf' n = map fst files ++ missing /\ (ok = true -> missing = []).
Proof.
  intros gdal g35 g37 asserts s ord1 ord2 ord opened made moved o h opts r f a d core suf suf' n r' ok files NA DF W SE FN E.
  exact (output_names gdal g35 g37 asserts s ord1 ord2 ord opened made moved o h opts r f a d core suf suf' n r' ok files NA DF W SE FN E).
Qed.
Print Assumptions C135_names.

(** A single array: the file of that name, with the suffix put right, in the
    format of the suffix. *)
Theorem C135_write : forall gdal g35 g37 s ord opened made moved o h opts values f a d core suf suf' n c,
  named o f a d core suf -> written_suffix gdal suf suf' -> settled o (file_name d core suf') ->
  WriteRasterToFile gdal g35 g37 s ord opened made moved o h opts values f = Ok (Some (n, c)) ->
  n = file_name d core suf' /\ (asc_suffix suf' /\ (exists t, c = CText t) \/ tif_suffix suf' /\ exists t, c = CTif t).
Proof.
  intros gdal g35 g37 s ord opened made moved o h opts values f a d core suf suf' n c NA W SE E.
  destruct (write_names gdal g35 g37 s ord opened made moved o h opts values f a d core suf suf' n c NA W SE E) as [EN F]. split; [exact EN|]. unfold format_of in F. destruct c; eauto.
Qed.
Print Assumptions C135_write.

(** A full array of several layers: numbered from 1 in both formats. *)
Theorem C135_fullsize : forall gdal g35 g37 s ord opened made moved o h opts full fsize lyrs nv f a d core suf suf' ok files,
  named o f a d core suf -> dir_form o d -> written_suffix gdal suf suf' -> settled o (file_name d core suf') ->
  (forall k, 1 <= k <= lyrs -> settled o (layer_file d core suf k) /\ settled o (layer_file d core suf' k)) ->
  OutputFullsizeToFiles gdal g35 g37 s ord opened made moved o h opts full fsize lyrs nv f = Ok (ok, files) ->
  exists missing, (if lyrs =? 1 then [file_name d core suf'] else map (fun k => layer_file d core suf' (k + 1)) (zseq lyrs)) = map fst files ++ missing /\ (ok = true -> missing = []).
Proof.
  intros gdal g35 g37 s ord opened made moved o h opts full fsize lyrs nv f a d core suf suf' ok files NA DF W SE SL E.
  exact (fullsize_names gdal g35 g37 s ord opened made moved o h opts full fsize lyrs nv f a d core suf suf' ok files NA DF W SE SL E).
Qed.
Print Assumptions C135_fullsize.

(** The file numbered [k + 1] is the file written of the [k]-th values of all cells. *)
Theorem C135_layers : forall gdal g35 g37 s ord opened made moved o h opts arr fsize lyrs nv f files, 0 <= fsize -> 2 <= lyrs ->
  OutputFullsizeToFiles gdal g35 g37 s ord opened made moved o h opts (Some arr) fsize lyrs nv f = Ok (true, files) ->
  Z.of_nat (List.length files) = lyrs /\ forall k, 0 <= k < lyrs -> exists vs nf, nth_error files (Z.to_nat k) = Some nf /\
    Z.of_nat (List.length vs) = fsize /\ (forall g, 0 <= g < fsize -> nth_error vs (Z.to_nat g) = nth_error arr (Z.to_nat (g * lyrs + k))) /\
    WriteRasterToFile gdal g35 g37 s ord opened made moved o h opts (Some vs) (AppendCoreFileName o f (itoa (k + 1)) "_") = Ok (Some nf).
Proof. exact fullsize_layers. Qed.
Print Assumptions C135_layers.

(** A name that no directory belongs to, the file not being there yet: nothing is
    written. *)
Theorem C135_bare_refused : forall gdal g35 g37 asserts s ord1 ord2 ord opened made moved o h opts (r : raster num) values f,
  resolves o f f -> not_directory o f -> ~ In "/"%char f ->
  OutputToFile gdal g35 g37 asserts s ord1 ord2 ord opened made moved o h opts r f = Ok (r, false, []) /\
  WriteRasterToFile gdal g35 g37 s ord opened made moved o h opts values f = Ok None.
Proof.
  intros gdal g35 g37 asserts s ord1 ord2 ord opened made moved o h opts r values f R N S. pose proof (no_slash o f f R N S) as E.
  unfold OutputToFile, WriteRasterToFile. rewrite E. auto.
Qed.
Print Assumptions C135_bare_refused.

(** A name without suffix: nothing is written. *)
Theorem C135_no_suffix_refused : forall gdal g35 g37 asserts s ord1 ord2 ord opened made moved o h opts (r : raster num) f a r' ok files,
  resolves o f a -> resolves o a a -> ~ In "."%char a -> resolves o [] [] -> not_directory o [] -> opened [] = false -> made [] = false ->
  OutputToFile gdal g35 g37 asserts s ord1 ord2 ord opened made moved o h opts r f = Ok (r', ok, files) -> ok = false /\ files = [].
Proof.
  intros gdal g35 g37 asserts s ord1 ord2 ord opened made moved o h opts r f a r' ok files R RA ND RE NE OE ME E.
  exact (no_dot gdal g35 g37 asserts s ord1 ord2 ord opened made moved o h opts r f a r' ok files R RA ND RE NE OE ME E).
Qed.
Print Assumptions C135_no_suffix_refused.

(** A file asked for is there after [true]: not so. With any suffix but those of
    the two formats (without GDAL: but that of ASC files) the file has another
    name, and reading the name asked for fails. *)
Theorem C135_replaced_refuted : forall gdal g35 g37 asserts s ord1 ord2 ord opened made moved o h opts (r : raster num) f a d core suf suf' n r' ok files,
  named o f a d core suf -> dir_form o d -> written_suffix gdal suf suf' -> settled o (file_name d core suf') -> first_number suf' n -> suf' <> suf ->
  OutputToFile gdal g35 g37 asserts s ord1 ord2 ord opened made moved o h opts r f = Ok (r', ok, files) ->
  ~ In a (map fst files) /\
  forall o' read order1 orders calc dflt nv, ReadFromFiles o' (on_disk files) read s order1 orders [a] calc dflt nv = Ok (false, None).
Proof.
  intros gdal g35 g37 asserts s ord1 ord2 ord opened made moved o h opts r f a d core suf suf' n r' ok files NA DF W SE FN NE E.
  destruct (C135_names _ _ _ _ _ _ _ _ _ _ _ _ _ _ _ _ _ _ _ _ _ _ _ _ _ NA DF W SE FN E) as (missing & EN & _).
  assert (NI : ~ In a (map fst files)).
  { intros I. apply NE. set (o0 := {| realpath := fun _ => None; isdir := fun _ => false |}). assert (RA : resolves o0 a a) by (right; split; reflexivity).
    pose proof NA as (_ & _ & _ & PP & SN). rewrite <- (GetSuffix_parts o0 a a d core suf RA PP SN).
    assert (IN : In a (names_of r' d core suf' n)) by (rewrite EN; apply in_or_app; left; exact I).
    assert (SP : ~ In "/"%char suf' /\ ~ In "."%char suf' /\ suf' <> []).
    { destruct PP as (_ & _ & S1 & S2). destruct W as [(_ & ->)|[(_ & _ & _ & ->)|[(_ & _ & _ & ->)|(_ & _ & ->)]]]; auto; [destruct tif_text as (T1 & T2 & T3 & _)|destruct asc_text as (T1 & T2 & T3 & _)]; auto. }
    symmetry. destruct SP as (S1 & S2 & S3). apply (names_suffix r' (file_name d core suf') d core suf' n a (parts_replaced _ _ _ _ _ PP S1 S2) S3 IN o0 RA). }
  split; [exact NI|]. intros. assert (L : lookup files a = None) by (apply lookup_none; exact NI). unfold ReadFromFiles. cbn [FilesExist forallb]. unfold on_disk. rewrite L. reflexivity.
Qed.
Print Assumptions C135_replaced_refuted.

(** * C136: GeoTIFF files *)

(** A raster written under a name ending in .tif and read from the files written,
    on a disk with any other files: its first layer is back, and every further
    layer where the first one has values. *)
Theorem C136_tif_back : forall g35 g37 asserts s ord1 ord2 ord opened made moved o h opts (r : raster num) x y cs ndd nd f a d core suf,
  named o f a d core suf -> dir_form o d -> tif_suffix suf -> (forall nm, made nm = true) -> (forall nm, moved nm = true) ->
  holds_data r -> grid_size (r_rows r) (r_cols r) -> in_int (r_nlyrs r) -> header_shows h (r_cols r) (r_rows r) x y cs ndd -> tidy_grid x y cs ->
  asks_nothing opts \/ asks opts s -> available g35 s -> s <> RDT_Int8 -> cells_of_type s r -> cvt s (VD ndd) = Ok nd ->
  exists files, OutputToFile true g35 g37 asserts s ord1 ord2 ord opened made moved o h opts r f = Ok (r, true, files) /\
    forall o' rest minmax calc dflt nv order1 orders, (forall nm, In nm (map fst files) -> resolves o' nm nm) ->
      (forall nm t, In (nm, CTif t) files -> f_type t = GDT_Byte -> minmax_ok t (minmax t)) -> orders_for r nd calc order1 orders ->
      exists h' r' core' path', ReadFromFiles o' (on_disk (files ++ rest)) (read_named true g35 g37 s o' (files ++ rest) minmax) s order1 orders (map fst files) calc dflt nv =
        Ok (true, Some (mkLayered h' r' core' path')) /\ comes_back r r' nd ndd /\ grid_back h' (r_rows r) (r_cols r) x y cs ndd.
Proof.
  intros g35 g37 asserts s ord1 ord2 ord opened made moved o h opts r x y cs ndd nd f a d core suf NA DF TS MA MO HD G IL HS TD AO AV N8 CT CV.
  destruct (tif_back g35 g37 asserts s ord1 ord2 ord opened made moved o h opts r x y cs ndd nd f a d core suf NA DF TS MA MO HD G IL HS TD AO AV N8 CT CV) as (files & E & NM & RD).
  exists files. split; [exact E|]. rewrite NM. exact RD.
Qed.
Print Assumptions C136_tif_back.

(** All values are back: not so. Those of further layers are lost where the first
    layer is NoData. *)
Theorem C136_lost_refuted : forall g35 g37 asserts s ord1 ord2 ord opened made moved o h opts (r : raster num) x y cs ndd nd f a d core suf i j lyr v w,
  named o f a d core suf -> dir_form o d -> tif_suffix suf -> (forall nm, made nm = true) -> (forall nm, moved nm = true) ->
  holds_data r -> grid_size (r_rows r) (r_cols r) -> in_int (r_nlyrs r) -> header_shows h (r_cols r) (r_rows r) x y cs ndd -> tidy_grid x y cs ->
  asks_nothing opts \/ asks opts s -> available g35 s -> s <> RDT_Int8 -> cells_of_type s r -> cvt s (VD ndd) = Ok nd ->
  inside r i j -> GetValue r i j 1 = Ok v -> cells_equal v nd = true -> 2 <= lyr <= r_nlyrs r -> GetValue r i j lyr = Ok w -> w <> nd ->
  exists files, OutputToFile true g35 g37 asserts s ord1 ord2 ord opened made moved o h opts r f = Ok (r, true, files) /\
    forall o' rest minmax calc dflt nv order1 orders, (forall nm, In nm (map fst files) -> resolves o' nm nm) ->
      (forall nm t, In (nm, CTif t) files -> f_type t = GDT_Byte -> minmax_ok t (minmax t)) -> orders_for r nd calc order1 orders ->
      exists h' r' core' path', ReadFromFiles o' (on_disk (files ++ rest)) (read_named true g35 g37 s o' (files ++ rest) minmax) s order1 orders (map fst files) calc dflt nv =
        Ok (true, Some (mkLayered h' r' core' path')) /\ GetValue r' i j lyr = Ok nd /\ GetValue r' i j lyr <> GetValue r i j lyr.
Proof.
  intros g35 g37 asserts s ord1 ord2 ord opened made moved o h opts r x y cs ndd nd f a d core suf i j lyr v w NA DF TS MA MO HD G IL HS TD AO AV N8 CT CV IN GV CE LY GW NW.
  destruct (C136_tif_back g35 g37 asserts s ord1 ord2 ord opened made moved o h opts r x y cs ndd nd f a d core suf NA DF TS MA MO HD G IL HS TD AO AV N8 CT CV) as (files & E & RD).
  exists files. split; [exact E|]. intros o' rest minmax calc dflt nv order1 orders RS MM OR. destruct (RD o' rest minmax calc dflt nv order1 orders RS MM OR) as (h' & r' & core' & path' & ER & (_ & _ & _ & _ & V) & _).
  exists h', r', core', path'. split; [exact ER|]. destruct (V i j v IN GV) as [_ B]. destruct (B CE) as [_ L]. rewrite (L lyr LY), GW. split; [reflexivity|]. congruence.
Qed.
Print Assumptions C136_lost_refuted.

(** * C137: ASC files *)

(** The same for a name ending in .asc, for cells that survive printing (all
    32-bit integers, doubles of six digits: C41) and rasters whose layers are
    complete; the grid comes back with six digits. *)
Theorem C137_asc_back : forall gdal g35 g37 asserts s ord1 ord2 ord opened made moved o h opts (r : raster num) x y cs ndd ndd' nd f a d core suf,
  named o f a d core suf -> dir_form o d -> asc_suffix suf -> (forall nm, opened nm = true) ->
  holds_data r -> (r_is2d r = true -> full_grid r) -> grid_size (r_rows r) (r_cols r) -> in_int (r_nlyrs r) -> header_shows h (r_cols r) (r_rows r) x y cs ndd -> tidy_grid x y cs ->
  ordinary x -> ordinary y -> cell_size cs -> is_finite ndd = true -> reread ndd ndd' -> cvt s (VD ndd') = Ok nd ->
  (forall i j lyr v, inside r i j -> layer_ok r lyr -> GetValue r i j lyr = Ok v -> readable (show_cell s) (cast_cell s) v) ->
  exists files, OutputToFile gdal g35 g37 asserts s ord1 ord2 ord opened made moved o h opts r f = Ok (r, true, files) /\
    forall o' rest minmax calc dflt nv order1 orders, (forall nm, In nm (map fst files) -> resolves o' nm nm) -> orders_for r nd calc order1 orders ->
      exists h' r' core' path' x' y' cs', ReadFromFiles o' (on_disk (files ++ rest)) (read_named gdal g35 g37 s o' (files ++ rest) minmax) s order1 orders (map fst files) calc dflt nv =
        Ok (true, Some (mkLayered h' r' core' path')) /\ comes_back r r' nd ndd' /\
        reread x x' /\ reread y y' /\ reread cs cs' /\ header_of h' (mkFgeo (r_rows r) (r_cols r) x' y' cs') ndd'.
Proof.
  intros gdal g35 g37 asserts s ord1 ord2 ord opened made moved o h opts r x y cs ndd ndd' nd f a d core suf NA DF TS OP HD FU G IL HS TD OX OY OC FN RN CV RD.
  destruct (asc_written gdal g35 g37 asserts s ord1 ord2 ord opened made moved o h opts r x y cs ndd f a d core suf NA DF TS OP HD G HS) as (c & fs & E & NM & TX & CE).
  assert (NM2 : map fst (map (fun nf : bytes * bytes => (fst nf, CText (snd nf))) fs) = names_of r d core suf 0) by (rewrite map_map; exact NM).
  eexists. split; [exact E|]. rewrite NM2. apply (asc_read gdal g35 g37 s o r x y cs ndd ndd' nd f a d core suf) with (show2 := show_cell s) (c := c); try assumption; try reflexivity.
  intros k i j K IN. destruct (CE k i j K IN) as (v & V & [(W & _)|(D & NS & _)]).
  - exists v. split; [exact V|]. split; [|exact W]. apply (RD i j (k + 1) v IN); [unfold layer_ok; lia|exact V].
  - exfalso. apply NS. split; [exact IN|]. left. exact (FU D).
Qed.
Print Assumptions C137_asc_back.

Lemma missing_text s : match s with RDT_Int8 => True | _ => match cvt s (VD (of_int (-9999))) with Ok m => show_cell s m = str "-9999" | _ => True end end.
Proof. destruct s; vm_compute; first [exact I|reflexivity]. Qed.

(** Rasters of several layers with dropped cells: these come back as the number
    -9999, whatever the NoData value. *)
Theorem C137_dropped_refuted : forall gdal g35 g37 asserts s ord1 ord2 ord opened made moved o h opts (r : raster num) x y cs ndd ndd' nd f a d core suf m r2,
  named o f a d core suf -> dir_form o d -> asc_suffix suf -> (forall nm, opened nm = true) ->
  holds_data r -> r_is2d r = true -> grid_size (r_rows r) (r_cols r) -> in_int (r_nlyrs r) -> header_shows h (r_cols r) (r_rows r) x y cs ndd -> tidy_grid x y cs ->
  ordinary x -> ordinary y -> cell_size cs -> is_finite ndd = true -> reread ndd ndd' -> cvt s (VD ndd') = Ok nd ->
  (forall i j lyr v, inside r i j -> layer_ok r lyr -> stored r i j -> GetValue r i j lyr = Ok v -> readable (show_cell s) (cast_cell s) v) ->
  s <> RDT_Int8 -> cvt s (VD (of_int (-9999))) = Ok m -> filled r m r2 ->
  exists files, OutputToFile gdal g35 g37 asserts s ord1 ord2 ord opened made moved o h opts r f = Ok (r, true, files) /\
    forall o' rest minmax calc dflt nv order1 orders, (forall nm, In nm (map fst files) -> resolves o' nm nm) -> orders_for r2 nd calc order1 orders ->
      exists h' r' core' path', ReadFromFiles o' (on_disk (files ++ rest)) (read_named gdal g35 g37 s o' (files ++ rest) minmax) s order1 orders (map fst files) calc dflt nv =
        Ok (true, Some (mkLayered h' r' core' path')) /\ comes_back r2 r' nd ndd' /\
        forall i j lyr, inside r i j -> layer_ok r lyr -> ~ stored r i j -> cells_equal m nd = false -> FloatEqual (as_double m) ndd' = false ->
          GetValue r i j lyr = Ok (r_nodata r) /\ GetValue r' i j lyr = Ok m.
Proof.
  intros gdal g35 g37 asserts s ord1 ord2 ord opened made moved o h opts r x y cs ndd ndd' nd f a d core suf m r2 NA DF TS OP HD D G IL HS TD OX OY OC FN RN CV RD N8 CM FI.
  destruct (asc_written gdal g35 g37 asserts s ord1 ord2 ord opened made moved o h opts r x y cs ndd f a d core suf NA DF TS OP HD G HS) as (c & fs & E & NM & TX & CE).
  assert (MS : show_cell s m = str "-9999" /\ readable (show_cell s) (cast_cell s) m).
  { assert (DX : forall x, double_of true (number_value true (dec 9999) 0) x -> x = of_int (-9999)).
    { intros x0 DX. pose proof (IsDouble_number _ _ _ _ (itoa_number (-9999))) as (x1 & E1 & D1). rewrite (IsDouble_itoa (-9999)) in E1 by lia. injection E1 as <-. exact (double_of_unique _ _ _ _ DX D1). }
    assert (SM : show_cell s m = str "-9999").
    { pose proof (missing_text s) as T. rewrite CM in T. destruct s; try exact T; congruence. }
    split; [exact SM|]. split; [rewrite SM; apply (itoa_no_space (-9999))|]. exists true, (dec 9999), 0. rewrite SM. split; [exact (itoa_number (-9999))|]. intros x0 X. rewrite (DX x0 X). exact CM. }
  destruct MS as [SM RM]. pose proof FI as (E1 & E2 & E3 & FV).
  assert (NM2 : map fst (map (fun nf : bytes * bytes => (fst nf, CText (snd nf))) fs) = names_of r d core suf 0) by (rewrite map_map; exact NM).
  eexists. split; [exact E|]. rewrite NM2. intros o' rest minmax calc dflt nv order1 orders RS OR.
  destruct (asc_read gdal g35 g37 s o r x y cs ndd ndd' nd f a d core suf NA TS HD G IL TD OX OY OC FN RN CV (show_cell s) r2 c fs E1 E2 E3 NM TX) with (rest := rest) (minmax := minmax) (calc := calc) (dflt := dflt) (nv := nv) (order1 := order1) (orders := orders) (o' := o')
    as (h' & r' & core' & path' & x' & y' & cs' & ER & CB & _); [|exact RS|exact OR|].
  { intros k i j K IN. assert (LO : layer_ok r (k + 1)) by (unfold layer_ok; lia). destruct (FV i j (k + 1) IN LO) as [F1 F2]. destruct (CE k i j K IN) as (v & V & [(W & ST)|(_ & NS & _ & W)]).
    - destruct ST as [X|ST]; [congruence|]. exists v. rewrite (F1 ST). split; [exact V|]. split; [|exact W]. exact (RD i j (k + 1) v IN LO ST V).
    - exists m. split; [exact (F2 NS)|]. split; [exact RM|]. rewrite W, SM. reflexivity. }
  exists h', r', core', path'. split; [exact ER|]. split; [exact CB|]. intros i j lyr IN LO NS CN FE. destruct (CE (lyr - 1) i j) as (v & V & [(_ & [X|ST])|(_ & _ & -> & _)]); [unfold layer_ok in LO; lia|exact IN|congruence|contradiction|].
  replace (lyr - 1 + 1) with lyr in V by lia. split; [exact V|]. destruct CB as (_ & _ & _ & _ & CV2).
  assert (IN2 : inside r2 i j) by (unfold inside in *; rewrite E1, E2; exact IN). assert (L1 : layer_ok r 1) by (unfold layer_ok in *; lia).
  destruct (CV2 i j m IN2 (proj2 (FV i j 1 IN L1) NS)) as [A _]. destruct (A CN) as [A1 A2].
  destruct (Z.eq_dec lyr 1) as [->|NE]; [exact A1|]. rewrite (A2 lyr m); [rewrite FE; reflexivity|unfold layer_ok in LO; lia|exact (proj2 (FV i j lyr IN LO) NS)].
Qed.
Print Assumptions C137_dropped_refuted.

(** Rasters of bytes: they are written as characters, so that the codes of
    digits come back as the digits. *)
Theorem C137_bytes_refuted : forall gdal g35 g37 asserts s ord1 ord2 ord opened made moved o h opts (r : raster num) x y cs ndd ndd' nd f a d core suf r2,
  named o f a d core suf -> dir_form o d -> asc_suffix suf -> (forall nm, opened nm = true) ->
  holds_data r -> (r_is2d r = true -> full_grid r) -> grid_size (r_rows r) (r_cols r) -> in_int (r_nlyrs r) -> header_shows h (r_cols r) (r_rows r) x y cs ndd -> tidy_grid x y cs ->
  ordinary x -> ordinary y -> cell_size cs -> is_finite ndd = true -> reread ndd ndd' -> cvt s (VD ndd') = Ok nd ->
  s = RDT_UInt8 \/ s = RDT_Int8 -> digit_codes r r2 ->
  exists files, OutputToFile gdal g35 g37 asserts s ord1 ord2 ord opened made moved o h opts r f = Ok (r, true, files) /\
    forall o' rest minmax calc dflt nv order1 orders, (forall nm, In nm (map fst files) -> resolves o' nm nm) -> orders_for r2 nd calc order1 orders ->
      exists h' r' core' path', ReadFromFiles o' (on_disk (files ++ rest)) (read_named gdal g35 g37 s o' (files ++ rest) minmax) s order1 orders (map fst files) calc dflt nv =
        Ok (true, Some (mkLayered h' r' core' path')) /\ comes_back r2 r' nd ndd'.
Proof.
  intros gdal g35 g37 asserts s ord1 ord2 ord opened made moved o h opts r x y cs ndd ndd' nd f a d core suf r2 NA DF TS OP HD FU G IL HS TD OX OY OC FN RN CV SB DC.
  destruct (asc_written gdal g35 g37 asserts s ord1 ord2 ord opened made moved o h opts r x y cs ndd f a d core suf NA DF TS OP HD G HS) as (c & fs & E & NM & TX & CE).
  pose proof DC as (E1 & E2 & E3 & DV).
  assert (NM2 : map fst (map (fun nf : bytes * bytes => (fst nf, CText (snd nf))) fs) = names_of r d core suf 0) by (rewrite map_map; exact NM).
  eexists. split; [exact E|]. rewrite NM2. intros o' rest minmax calc dflt nv order1 orders RS OR.
  destruct (asc_read gdal g35 g37 s o r x y cs ndd ndd' nd f a d core suf NA TS HD G IL TD OX OY OC FN RN CV (fun v => match v with VI z => itoa z | _ => [] end) r2 c fs E1 E2 E3 NM TX) with (rest := rest) (minmax := minmax) (calc := calc) (dflt := dflt) (nv := nv) (order1 := order1) (orders := orders) (o' := o')
    as (h' & r' & core' & path' & x' & y' & cs' & ER & CB & _); [|exact RS|exact OR|].
  { intros k i j K IN. assert (LO : layer_ok r (k + 1)) by (unfold layer_ok; lia). destruct (DV i j (k + 1) IN LO) as (z & Z & V1 & V2). destruct (CE k i j K IN) as (v & V & [(W & _)|(D & NS & _)]).
    2:{ exfalso. apply NS. split; [exact IN|]. left. exact (FU D). }
    rewrite V1 in V. injection V as <-. exists (VI z). split; [exact V2|].
    assert (TXT : show_cell s (VI (48 + z)) = itoa z).
    { assert (CZ : z = 0 \/ z = 1 \/ z = 2 \/ z = 3 \/ z = 4 \/ z = 5 \/ z = 6 \/ z = 7 \/ z = 8 \/ z = 9) by lia.
      destruct SB as [-> | ->]; repeat (destruct CZ as [-> |CZ]; [vm_compute; reflexivity|]); subst z; vm_compute; reflexivity. }
    split; [|rewrite W; exact TXT]. split; [apply itoa_no_space|]. exists (z <? 0), (dec (Z.abs z)), 0. split; [apply itoa_number|]. intros x0 X.
    pose proof (IsDouble_number _ _ _ _ (itoa_number z)) as (x1 & EI & D1). rewrite (IsDouble_itoa z) in EI by lia. injection EI as <-. rewrite (double_of_unique _ _ _ _ X D1).
    assert (CZ : z = 0 \/ z = 1 \/ z = 2 \/ z = 3 \/ z = 4 \/ z = 5 \/ z = 6 \/ z = 7 \/ z = 8 \/ z = 9) by lia.
    destruct SB as [-> | ->]; repeat (destruct CZ as [-> |CZ]; [vm_compute; reflexivity|]); subst z; vm_compute; reflexivity. }
  exists h', r', core', path'. auto.
Qed.
Print Assumptions C137_bytes_refuted.

(** ** Concrete cases *)
Definition shown_names (m : outcome (raster num * bool * disk)) : option (bool * list bytes) :=
  match m with Ok (_, ok, fs) => Some (ok, map fst fs) | _ => None end.
Definition files_in (m : outcome (raster num * bool * disk)) : disk := match m with Ok (_, _, fs) => fs | _ => [] end.
Definition cells_back (m : outcome (bool * option layered)) (lyrs : list Z) : option (list (list (outcome num))) :=
  match m with
  | Ok (true, Some x) => Some (map (fun k => map (fun ij => GetValue (ly_raster x) (fst ij) (snd ij) k) [(0, 0); (0, 1); (1, 0); (1, 1)]) lyrs)
  | _ => None
  end.
Definition minus_nine := of_int (-9).
Definition two_dropped : raster num := match SetCalcPositions num_eq [1; 0; 2]%nat tif_two with Ok (r', _) => r' | _ => tif_two end.
Definition write_two (gdal : bool) (name : string) := OutputToFile gdal false false true RDT_Int32 [] [] no_order yes yes yes tif_os (tif_header minus_nine) [] tif_two (str name).
Definition read_files (gdal : bool) (order : list nat) (d : disk) :=
  ReadFromFiles tif_os (on_disk d) (read_named gdal false false RDT_Int32 tif_os d (fun _ => None)) RDT_Int32 order (fun _ => order) (map fst d) true (VI 0) (VI (-9999)).

Lemma ex_named suf : suf <> [] -> ~ In "/"%char suf -> ~ In "."%char suf -> named tif_os (str "m." ++ suf) (str "/d/m." ++ suf) (str "/d") (str "m") suf.
Proof.
  intros N S D. split; [left; reflexivity|]. split; [left; reflexivity|]. split; [intros a _; reflexivity|]. split; [|exact N].
  split; [reflexivity|]. split; [|auto]. intros [X|[]]; discriminate.
Qed.
Lemma ex_dir : dir_form tif_os (str "/d").
Proof. exists (str "/d/"). split; [left; reflexivity|left; reflexivity]. Qed.
Lemma ex_settled a : hd_error a = Some "/"%char -> settled tif_os a.
Proof. intros H. destruct a as [|c a]; [discriminate|]. injection H as ->. split; [left; reflexivity|intros b _; reflexivity]. Qed.

Example C135_ex :
  named tif_os (str "m.tif") (str "/d/m.tif") (str "/d") (str "m") (str "tif") /\ dir_form tif_os (str "/d") /\
  written_suffix true (str "tif") (str "tif") /\ written_suffix false (str "tif") (str "asc") /\ written_suffix true (str "dat") (str "tif") /\ written_suffix true (str "Asc") (str "Asc") /\
  shown_names (write_two true "m.tif") = Some (true, [str "/d/m_1.tif"; str "/d/m_2.tif"]) /\
  shown_names (write_two true "m.Asc") = Some (true, [str "/d/m_0.Asc"; str "/d/m_1.Asc"]) /\
  shown_names (write_two true "m.dat") = Some (true, [str "/d/m_1.tif"; str "/d/m_2.tif"]) /\
  shown_names (write_two false "m.tif") = Some (true, [str "/d/m_0.asc"; str "/d/m_1.asc"]) /\
  shown_names (OutputToFile true false false true RDT_Int32 [] [] no_order yes yes yes {| realpath := fun _ => None; isdir := fun _ => false |} (tif_header minus_nine) [] tif_two (str "m.tif")) = Some (false, []) /\
  shown_names (OutputToFile true false false true RDT_Int32 [] [] no_order yes yes (fun n => negb (StringMatch n (str "/d/m_2.tif"))) tif_os (tif_header minus_nine) [] tif_two (str "m.tif")) = Some (false, [str "/d/m_1.tif"]) /\
  (exists t1 t2, OutputFullsizeToFiles true false false RDT_Int32 no_order yes yes yes tif_os (tif_header minus_nine) []
     (Some [VI 5; VI 50; VI 6; VI 60; VI (-9); VI 70; VI 8; VI 80]) 4 2 (VI (-9999)) (str "m.asc") = Ok (true, [(str "/d/m_1.asc", CText t1); (str "/d/m_2.asc", CText t2)])).
Proof.
  assert (NT : ~ In "/"%char (str "tif") /\ ~ In "."%char (str "tif")) by (destruct tif_text as (A & B & _); auto).
  split; [apply (ex_named (str "tif")); [discriminate|apply NT|apply NT]|]. split; [apply ex_dir|].
  split; [right; left; split; [apply tif_text|]; split; [reflexivity|]; split; [apply tif_text|reflexivity]|].
  split; [right; right; right; split; [apply tif_text|]; split; reflexivity|].
  split; [right; right; left; split; [|split; [reflexivity|split; [|reflexivity]]]; intros X; inversion X as [|? ? ? ? A]; subst; apply toupper_same in A; discriminate|].
  split; [left; split; [|reflexivity]; repeat (constructor; [apply toupper_same; reflexivity|]); constructor|].
  do 6 (split; [vm_compute; reflexivity|]). eexists _, _. vm_compute. reflexivity.
Qed.

(** The cells of the second layer come back but for the one where the first layer
    is NoData. *)
Example C136_ex : holds_data tif_two /\ tidy_grid (of_int 0) (of_int 3) (of_int 10) /\ cvt RDT_Int32 (VD minus_nine) = Ok (VI (-9)) /\
  orders_for tif_two (VI (-9)) true [2; 0; 1]%nat (fun _ => [2; 0; 1]%nat) /\
  cells_back (read_files true [2; 0; 1]%nat (files_in (write_two true "m.tif"))) [1; 2] =
    Some [[Ok (VI 5); Ok (VI 6); Ok (VI (-9)); Ok (VI 8)]; [Ok (VI 50); Ok (VI 60); Ok (VI (-9)); Ok (VI 80)]] /\
  GetValue tif_two 1 0 2 = Ok (VI 70).
Proof.
  split; [left; apply tif_full_two|]. split.
  { assert (E0 : B2R (of_int 0) = 0%R) by reflexivity.
    assert (E3 : B2R (of_int 3) = 3%R) by (rewrite (proj2 (of_int_exact 3 ltac:(lia))); reflexivity).
    assert (E10 : B2R (of_int 10) = 10%R) by (rewrite (proj2 (of_int_exact 10 ltac:(lia))); reflexivity).
    unfold tidy_grid. rewrite E0, E3, E10, Rabs_R0, (Rabs_pos_eq 3) by lra. split; [reflexivity|]. split; [reflexivity|]. split; [reflexivity|].
    assert (B39 : (1 <= bpow radix2 39)%R) by (apply (bpow_le radix2 0); lia). assert (B30 : (bpow radix2 (-30) <= 1)%R) by (apply (bpow_le radix2 _ 0); lia).
    assert (B900 : (16 <= bpow radix2 900)%R) by (apply (bpow_le radix2 4); lia). repeat split; lra. }
  split; [vm_compute; reflexivity|]. split.
  { intros l R C (LV & V). change (r_rows tif_two) with 2 in *. change (r_cols tif_two) with 2 in *.
    assert (A : forall i j, 0 <= i < 2 -> 0 <= j < 2 -> nth_error (fl_vals l) (Z.to_nat (i * 2 + j)) = match GetValue tif_two i j 1 with Ok v => Some v | _ => None end).
    { intros i j I J. destruct (V i j (conj I J)) as (v & E & ->). exact E. }
    pose proof (A 0 0 ltac:(lia) ltac:(lia)) as A0. pose proof (A 0 1 ltac:(lia) ltac:(lia)) as A1. pose proof (A 1 0 ltac:(lia) ltac:(lia)) as A2. pose proof (A 1 1 ltac:(lia) ltac:(lia)) as A3.
    destruct (fl_vals l) as [|v0 [|v1 [|v2 [|v3 [|v4 t]]]]] eqn:EL; cbn [List.length] in LV; try lia.
    change (Some v0 = Some (VI 5)) in A0. change (Some v1 = Some (VI 6)) in A1. change (Some v2 = Some (VI (-9))) in A2. change (Some v3 = Some (VI 8)) in A3.
    injection A0 as ->. injection A1 as ->. injection A2 as ->. injection A3 as ->.
    assert (VC : valid_count l (VI (-9)) = 3) by (unfold valid_count; rewrite EL; vm_compute; reflexivity).
    assert (SC : schedule 3 [2; 0; 1]%nat) by (unfold schedule; apply NoDup_Permutation; [repeat constructor; cbn; lia|apply seq_NoDup|]; intros i; change (seq 0 (Z.to_nat 3)) with [0; 1; 2]%nat; cbn [In]; lia).
    unfold any_order. rewrite VC. split; [exact SC|]. intros k. exact SC. }
  split; vm_compute; reflexivity.
Qed.

(** The same as ASC files; with the third cell dropped it comes back as -9999 in
    both layers, although NoData is -9. *)
Example C137_ex :
  cells_back (read_files false [2; 0; 1]%nat (files_in (write_two false "m.asc"))) [1; 2] =
    Some [[Ok (VI 5); Ok (VI 6); Ok (VI (-9)); Ok (VI 8)]; [Ok (VI 50); Ok (VI 60); Ok (VI (-9)); Ok (VI 80)]] /\
  r_is2d two_dropped = true /\ r_posidx two_dropped = Some [0; 1; 3] /\ GetValue two_dropped 1 0 1 = Ok (VI (-9)) /\
  cells_back (read_files false [2; 0; 1; 3]%nat (files_in (OutputToFile false false false true RDT_Int32 [] [] no_order yes yes yes tif_os (tif_header minus_nine) [] two_dropped (str "m.asc")))) [1; 2] =
    Some [[Ok (VI 5); Ok (VI 6); Ok (VI (-9999)); Ok (VI 8)]; [Ok (VI 50); Ok (VI 60); Ok (VI (-9999)); Ok (VI 80)]] /\
  filled two_dropped (VI (-9999)) (FromArray2D (Some [[VI 5; VI 50]; [VI 6; VI 60]; [VI (-9999); VI (-9999)]; [VI 8; VI 80]]) 2 2 2 (VI (-9)) (VI 0) 10%Q 0%Q 3%Q).
Proof.
  do 5 (split; [vm_compute; reflexivity|]). split; [reflexivity|]. split; [reflexivity|]. split; [reflexivity|].
  assert (CP : compact two_dropped [0; 1; 3]).
  { replace [0; 1; 3] with (valid_idx num_eq tif_two) by (vm_compute; reflexivity). unfold two_dropped. rewrite (SetCalcPositions_full num_eq tif_two [1; 0; 2]%nat tif_full_two); [|apply perm_swap].
    destruct (compacted_shape num_eq tif_two tif_full_two) as [(X & _)|(_ & X)]; [vm_compute in X; discriminate|exact X]. }
  intros i j lyr (I & J) L. unfold layer_ok in L. change (r_rows two_dropped) with 2 in I. change (r_cols two_dropped) with 2 in J. change (r_nlyrs two_dropped) with 2 in L.
  assert (CI : i = 0 \/ i = 1) by lia. assert (CJ : j = 0 \/ j = 1) by lia. assert (CL : lyr = 1 \/ lyr = 2) by lia.
  assert (ST : stored two_dropped i j <-> In (i * 2 + j) [0; 1; 3]).
  { split.
    - intros (_ & [F|(ix & C' & I')]); [destruct F as (_ & _ & _ & _ & _ & P & _); vm_compute in P; discriminate|]. destruct C' as (_ & _ & _ & _ & _ & _ & _ & P & _). destruct CP as (_ & _ & _ & _ & _ & _ & _ & P' & _).
      rewrite P' in P. injection P as <-. exact I'.
    - intros I'. split; [split; assumption|]. right. exists [0; 1; 3]. split; [exact CP|exact I']. }
  split; intros S.
  - apply ST in S. destruct CI as [-> | ->], CJ as [-> | ->]; cbn [Z.mul Z.add Pos.mul Pos.add In] in S; try (exfalso; lia); destruct CL as [-> | ->]; vm_compute; reflexivity.
  - destruct CI as [-> | ->], CJ as [-> | ->]; try (exfalso; apply S, ST; cbn; lia). destruct CL as [-> | ->]; vm_compute; reflexivity.
Qed.

(** A raster of the bytes 49, 50 comes back as one of 1, 2. *)
Definition code_bytes : raster num := FromArray (Some [VI 49; VI 50; VI 57; VI 48]) 2 2 (VI 255) (VI 0) 10%Q 0%Q 3%Q.
Example C137_bytes_ex :
  cells_back (let d := files_in (OutputToFile false false false true RDT_UInt8 [] [] no_order yes yes yes tif_os (tif_header (of_int 255)) [] code_bytes (str "m.asc")) in
    ReadFromFiles tif_os (on_disk d) (read_named false false false RDT_UInt8 tif_os d (fun _ => None)) RDT_UInt8 [2; 0; 1; 3]%nat (fun _ => []) (map fst d) true (VI 0) (VI 0)) [1] =
    Some [[Ok (VI 1); Ok (VI 2); Ok (VI 9); Ok (VI 0)]].
Proof. vm_compute. reflexivity. Qed.
