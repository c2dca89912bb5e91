(** Property theorems about reading several files as layers (C93-C98). *)
From Coq Require Import ZArith Reals Lia Lra Ascii String List Bool.
From Flocq Require Import Core BinarySingleNaN.
From Verif Require Import Base StrModel StrSpec MapModel MapProofs BasicModel FloatModel FloatProofs TypeModel CoordFloatModel CoordFloatSpec CoordFloatProofs
  FsModel FsSpec FsProofs RasterModel RasterSpec RasterProofs CopyModel NumModel AscModel AscSpec CellModel GridfsModel GdalModel LayersModel LayersSpec LayersProofs LayersProofs2 LayersProofs3 LayersProofs4 LayersProofs5 LayersProofs6 LayersProofs7.
Import ListNotations.
Open Scope Z_scope.

(** The first file is read with this header (data_raster.hpp:90-113). *)
Definition start : smap f64 := map (fun kv => (fst kv, of_int (snd kv))) InitialHeader.

(** The files exist and are read as the layers [l0] and [ls]; [nd] is the NoData
    value of the first file as a cell; at the centre of each valid cell of the
    first layer each other layer has something definite. *)
Definition readable (exist : bytes -> bool) (read : bytes -> smap f64 -> outcome layer_read) (s : rdt) (file : bytes) (others : list bytes)
    (l0 : flayer) (ls : list flayer) (nd : num) : Prop :=
  FilesExist exist (file :: others) = true /\ others <> [] /\
  gives (read file start) l0 /\ proper l0 /\ cvt s (VD (fl_nodata l0)) = Ok nd /\
  Forall2 (fun f l => gives (read f []) l) others ls /\ Forall proper ls /\
  forall i j v, file_value l0 i j v -> cells_equal v nd = false -> forall l, In l ls ->
    let xy := fCoordinate (fl_geo l0) i j in exists w, seen l nd (fst xy) (snd xy) w.

(** ** C93 *)
(** The raster has the grid of the first file and a layer per file. Where the first
    layer has a value, layer 1 holds it and layer n+2 what file n+2 has at that
    place; where it has NoData, all the layers have. *)
Theorem C93_layers : forall (o : os) exist read s file others l0 ls nd calc dflt nv order1 orders,
  readable exist read s file others l0 ls nd -> any_order l0 nd calc order1 orders ->
  exists h r core path, ReadFromFiles o exist read s order1 orders (file :: others) calc dflt nv = Ok (true, Some (mkLayered h r core path)) /\
  wf r /\ r_rows r = fg_rows (fl_geo l0) /\ r_cols r = fg_cols (fl_geo l0) /\ r_nlyrs r = Z.of_nat (List.length (file :: others)) /\ r_nodata r = nd /\
  header_of h (fl_geo l0) (fl_nodata l0) /\ lookup h (str "LAYERS") = Some (of_int (Z.of_nat (List.length (file :: others)))) /\
  forall i j v, file_value l0 i j v ->
  (cells_equal v nd = false -> GetValue r i j 1 = Ok v /\
     forall n l w, nth_error ls n = Some l -> seen l nd (fst (fCoordinate (fl_geo l0) i j)) (snd (fCoordinate (fl_geo l0) i j)) w ->
       GetValue r i j (Z.of_nat n + 2) = Ok w) /\
  (cells_equal v nd = true -> (exists w, GetValue r i j 1 = Ok w /\ (w = v \/ w = nd)) /\
     forall lyr, 2 <= lyr <= Z.of_nat (List.length (file :: others)) -> GetValue r i j lyr = Ok nd).
Proof.
  intros o exist read s file others l0 ls nd calc dflt nv order1 orders (EX & NE & G0 & P0 & CV & GS & PS & SE) OR.
  destruct (read_files o exist read s order1 orders file others others l0 ls calc dflt nv nd EX NE G0 P0 CV GS PS OR SE eq_refl) as (h & d2 & HH & E & T & A).
  cbv zeta in E. eexists _, _, _, _. split; [exact E|].
  destruct (R_fields file others l0 calc dflt nv nd P0) as (FR & FC & FL & FN & _).
  split; [exact (result_wf o exist read s order1 orders file others others l0 ls calc dflt nv nd EX NE G0 P0 CV GS PS OR SE d2 T)|].
  split; [exact FR|]. split; [exact FC|]. split; [exact FL|]. split; [exact FN|]. split; [apply header_update; [exact HH|right; reflexivity]|].
  split; [rewrite lookup_UpdateMap; reflexivity|].
  exact (result_values o exist read s order1 orders file others others l0 ls calc dflt nv nd EX NE G0 P0 CV GS PS OR SE d2 eq_refl T A).
Qed.
Print Assumptions C93_layers.

(** All files on one grid: layer n+2 is the (n+2)-th file, cell by cell. *)
Theorem C93_same_grid : forall (o : os) exist read s file others l0 ls nd calc dflt nv order1 orders,
  FilesExist exist (file :: others) = true -> others <> [] -> gives (read file start) l0 -> proper l0 -> cvt s (VD (fl_nodata l0)) = Ok nd ->
  Forall2 (fun f l => gives (read f []) l) others ls -> (forall l, In l ls -> proper l /\ fl_geo l = fl_geo l0) -> any_order l0 nd calc order1 orders ->
  exists h r core path, ReadFromFiles o exist read s order1 orders (file :: others) calc dflt nv = Ok (true, Some (mkLayered h r core path)) /\
  forall i j v, file_value l0 i j v -> cells_equal v nd = false -> GetValue r i j 1 = Ok v /\
    forall n l w, nth_error ls n = Some l -> file_value l i j w ->
      GetValue r i j (Z.of_nat n + 2) = Ok (if FloatEqual (as_double w) (fl_nodata l) then nd else w).
Proof.
  intros o exist read s file others l0 ls nd calc dflt nv order1 orders EX NE G0 P0 CV GS SG OR.
  assert (SEEN : forall i j v, file_value l0 i j v -> forall l, In l ls -> forall w, file_value l i j w ->
     seen l nd (fst (fCoordinate (fl_geo l0) i j)) (snd (fCoordinate (fl_geo l0) i j)) (if FloatEqual (as_double w) (fl_nodata l) then nd else w)).
  { intros i j v (I & J & _) l IL w FW. left. destruct (SG l IL) as [_ EG]. exists i, j, w. rewrite EG. destruct (fcentre (fl_geo l0) i j (proj1 (proj2 P0)) I J) as (WI & X & Y). auto. }
  assert (RD : readable exist read s file others l0 ls nd).
  { repeat (split; [assumption|]). split; [apply Forall_forall; intros l IL; apply SG; exact IL|].
    intros i j v FV _ l IL. destruct (SG l IL) as [PL EG]. pose proof FV as (I & J & _). destruct PL as (_ & _ & LN).
    destruct (nth_error (fl_vals l) (Z.to_nat (i * fg_cols (fl_geo l) + j))) as [w|] eqn:E.
    - cbv zeta. exists (if FloatEqual (as_double w) (fl_nodata l) then nd else w). apply (SEEN i j v FV l IL w). split; [rewrite EG; exact I|]. split; [rewrite EG; exact J|exact E].
    - apply nth_error_None in E. rewrite EG in E, LN. nia. }
  destruct (C93_layers o exist read s file others l0 ls nd calc dflt nv order1 orders RD OR) as (h & r & core & path & E & _ & _ & _ & _ & _ & _ & _ & VAL).
  exists h, r, core, path. split; [exact E|]. intros i j v FV CE. destruct (VAL i j v FV) as [V1 _]. destruct (V1 CE) as [G1 GN]. split; [exact G1|].
  intros n l w EL FW. apply (GN n l _ EL). apply (SEEN i j v FV l (nth_error_In _ _ EL) w FW).
Qed.
Print Assumptions C93_same_grid.

(** ** C94 *)
(** A cell of the first layer whose centre lies well inside a cell of another layer
    that has a value there, but left of (or below) the centre of that layer's lower
    left cell: NoData. *)
Theorem C94_half_strip_refuted : forall (o : os) exist read s file others l0 ls nd calc dflt nv order1 orders n l i j v i' j' w,
  readable exist read s file others l0 ls nd -> any_order l0 nd calc order1 orders ->
  nth_error ls n = Some l -> file_value l0 i j v -> cells_equal v nd = false ->
  let xy := fCoordinate (fl_geo l0) i j in
  well_inside (fl_geo l) i' j' (fst xy) (snd xy) -> file_value l i' j' w -> FloatEqual (as_double w) (fl_nodata l) = false ->
  (B2R (fst xy) < B2R (fg_xll (fl_geo l)) \/ B2R (snd xy) < B2R (fg_yll (fl_geo l)))%R ->
  exists h r core path, ReadFromFiles o exist read s order1 orders (file :: others) calc dflt nv = Ok (true, Some (mkLayered h r core path)) /\
  GetValue r i j (Z.of_nat n + 2) = Ok nd.
Proof.
  intros o exist read s file others l0 ls nd calc dflt nv order1 orders n l i j v i' j' w RD OR EL FV CE xy (_ & _ & FX & FY & _) _ _ LOW.
  destruct (C93_layers o exist read s file others l0 ls nd calc dflt nv order1 orders RD OR) as (h & r & core & path & E & _ & _ & _ & _ & _ & _ & _ & VAL).
  exists h, r, core, path. split; [exact E|]. destruct (VAL i j v FV) as [V1 _]. apply (proj2 (V1 CE) n l nd EL). right. split; [|reflexivity].
  split; [exact FX|]. split; [exact FY|]. destruct LOW as [X|Y]; [left; exact X|right; left; exact Y].
Qed.
Print Assumptions C94_half_strip_refuted.

(** ** C95 *)
(** A reader that gives up leaves the header as it was. *)
Theorem C95_readers_keep : forall (T : Type) (cast : f64 -> outcome T) fuel src h h' v v' g35 g37 s f minmax moved vn t srs out,
  (ReadAscFile cast fuel src h v = Some (Ok (false, h', v')) -> h' = h) /\
  (ReadRasterFileByGdal g35 g37 s f minmax moved h vn t srs = Ok out -> g_ok out = false -> g_header out = h).
Proof.
  intros T cast fuel src h h' v v' g35 g37 s f minmax moved vn t srs out. split.
  - unfold ReadAscFile. destruct (LoadPlainTextFile fuel src []) as [[[] lines]|]; [|congruence|discriminate].
    destruct (_ <? 7); [congruence|]. destruct (ofold _ _ _) as [[st ok]| |]; cbn [obind snd fst]; try discriminate.
    destruct ok; [|congruence]. unfold asc_finish. destruct (_ || _); [congruence|]. cbv zeta. destruct (imul _ _); cbn [obind]; discriminate.
  - unfold ReadRasterFileByGdal. destruct f as [f|]; [|intros [= <-]; reflexivity]. destruct (imul _ _); cbn [obind]; try discriminate.
    destruct (read_cells _ _ _ _ _ _ _) as [[[vs t']|]| |]; cbn [obind]; try discriminate; [|intros [= <-]; reflexivity].
    cbv zeta. destruct (imul _ _); cbn [obind]; try discriminate. intros [= <-]. discriminate.
Qed.
Print Assumptions C95_readers_keep.

(** One of the later files cannot be read (after any number that can): the result
    of reading is not looked at, and the call throws out_of_range instead of
    returning false. *)
Theorem C95_unreadable_refuted : forall (o : os) exist read s order1 orders file good bad rest l0 ls calc dflt nv nd data,
  FilesExist exist (file :: good ++ bad :: rest) = true -> gives (read file start) l0 -> proper l0 -> cvt s (VD (fl_nodata l0)) = Ok nd ->
  Forall2 (fun f l => gives (read f []) l) good ls -> Forall proper ls -> any_order l0 nd calc order1 orders ->
  (forall i j v, file_value l0 i j v -> cells_equal v nd = false -> forall l, In l ls ->
     let xy := fCoordinate (fl_geo l0) i j in exists w, seen l nd (fst xy) (snd xy) w) ->
  read bad [] = Ok (false, [], data) -> (exists i j v, file_value l0 i j v /\ cells_equal v nd = false) ->
  ReadFromFiles o exist read s order1 orders (file :: good ++ bad :: rest) calc dflt nv = Throw.
Proof. intros. eapply unreadable; eassumption. Qed.
Print Assumptions C95_unreadable_refuted.

(** ** C96 *)
(** Cells of type float, another file's NoData value not a float: the NoData cells
    of that file come out as values. *)
Theorem C96_float_nodata_refuted : forall (o : os) exist read file others l0 ls nd calc dflt nv order1 orders n l i j v i' j' w,
  readable exist read RDT_Float file others l0 ls nd -> any_order l0 nd calc order1 orders ->
  nth_error ls n = Some l -> file_value l0 i j v -> cells_equal v nd = false ->
  let xy := fCoordinate (fl_geo l0) i j in
  well_inside (fl_geo l) i' j' (fst xy) (snd xy) ->
  (B2R (fg_xll (fl_geo l)) <= B2R (fst xy))%R -> (B2R (fg_yll (fl_geo l)) <= B2R (snd xy))%R ->
  file_value l i' j' w -> cvt RDT_Float (VD (fl_nodata l)) = Ok w -> FloatEqual (as_double w) (fl_nodata l) = false -> cells_equal w nd = false ->
  exists h r core path, ReadFromFiles o exist read RDT_Float order1 orders (file :: others) calc dflt nv = Ok (true, Some (mkLayered h r core path)) /\
  GetValue r i j (Z.of_nat n + 2) = Ok w /\ IsNoData cells_equal r i j (Z.of_nat n + 2) = Ok false.
Proof.
  intros o exist read file others l0 ls nd calc dflt nv order1 orders n l i j v i' j' w RD OR EL FV CE xy WI X Y FW CW FE WN.
  destruct (C93_layers o exist read RDT_Float file others l0 ls nd calc dflt nv order1 orders RD OR) as (h & r & core & path & E & _ & _ & _ & _ & ND & _ & _ & VAL).
  exists h, r, core, path. split; [exact E|]. destruct (VAL i j v FV) as [V1 _].
  assert (GV : GetValue r i j (Z.of_nat n + 2) = Ok w).
  { apply (proj2 (V1 CE) n l w EL). left. exists i', j', w. rewrite FE. auto. }
  split; [exact GV|]. unfold IsNoData. rewrite GV. cbn [obind]. rewrite ND, WN. reflexivity.
Qed.
Print Assumptions C96_float_nodata_refuted.

(** ** C97 *)
(** A layer of the same size half a cell further left: its right edge runs through
    the centres of the last column. They are taken to be in column [cols], one past
    the last; in the last row the array is left. *)
Theorem C97_border_refuted : forall (o : os) exist read s order1 orders file other rest rows cols a b c nd0 nd1 vals0 vals1 calc dflt nv nd,
  FilesExist exist (file :: other :: rest) = true ->
  grid_size rows cols -> Z.abs a <= 2 ^ 40 -> Z.abs b <= 2 ^ 40 -> 0 < c <= 2 ^ 20 ->
  Z.of_nat (List.length vals0) = rows * cols -> Z.of_nat (List.length vals1) = rows * cols ->
  let g0 := mkFgeo rows cols (of_int a) (of_int b) (of_int (2 * c)) in
  let g1 := mkFgeo rows cols (of_int (a - c)) (of_int b) (of_int (2 * c)) in
  let l0 := mkFlayer g0 nd0 vals0 in let l1 := mkFlayer g1 nd1 vals1 in
  gives (read file start) l0 -> cvt s (VD nd0) = Ok nd -> gives (read other []) l1 -> any_order l0 nd calc order1 orders ->
  (forall i, 0 <= i < rows -> let xy := fCoordinate g0 i (cols - 1) in fPositionByCoordinate g1 (fst xy) (snd xy) = Ok (i, cols)) /\
  forall v, file_value l0 (rows - 1) (cols - 1) v -> cells_equal v nd = false ->
    ReadFromFiles o exist read s order1 orders (file :: other :: rest) calc dflt nv = UB.
Proof.
  intros o exist read s order1 orders file other rest rows cols a b c nd0 nd1 vals0 vals1 calc dflt nv nd EX G A B C L0 L1 g0 g1 l0 l1 G0 CV G1 OR. split.
  - intros i I. pose proof (border_position rows cols a b c G A B C i (cols - 1) I) as P. destruct G as (_ & K & _). specialize (P ltac:(lia)).
    replace (cols - 1 + 1) with cols in P by ring. exact P.
  - intros v FV V. exact (shifted_left o exist read s order1 orders file other rest rows cols a b c nd0 nd1 vals0 vals1 calc dflt nv nd v EX G A B C L0 L1 G0 CV G1 OR FV V).
Qed.
Print Assumptions C97_border_refuted.

(** ** C98 *)
Lemma names_of (o : os) exist read s order1 orders file f2 rest calc dflt nv ly :
  ReadFromFiles o exist read s order1 orders (file :: f2 :: rest) calc dflt nv = Ok (true, Some ly) ->
  ly_core ly = cut_core (GetCoreFileName o file) /\
  ly_path ly = (GetPathFromFullName o file ++ cut_core (GetCoreFileName o file) ++ str "_%d." ++ GetSuffix o file)%list.
Proof.
  unfold ReadFromFiles. destruct (negb _); [discriminate|]. cbv zeta. destruct (ConstructFromSingleFile _ _ _ _ _ _ _ _) as [[[[] h] [r|]]| |]; cbn [obind]; try discriminate.
  destruct (deref _); cbn [obind]; try discriminate. destruct (ofold _ _ _); cbn [obind]; try discriminate. destruct (own_geo h); cbn [obind]; try discriminate.
  destruct (add_layers _ _ _ _ _ _ _ _); cbn [obind]; try discriminate. intros [= <-]. split; reflexivity.
Qed.

Lemma cut_at c k : ~ In "_"%char k -> cut_core (c ++ "_"%char :: k) = c.
Proof. intros N. unfold cut_core. rewrite find_last_app by exact N. rewrite firstn_app, Nat.sub_diag, firstn_all. cbn [firstn]. apply app_nil_r. Qed.

(** The first of the files is dir/core_1.suf or dir/core.suf: the core name and the
    template for the names of the layers. *)
Theorem C98_template : forall (o : os) exist read s order1 orders file f2 rest calc dflt nv ly a d core name suf,
  ReadFromFiles o exist read s order1 orders (file :: f2 :: rest) calc dflt nv = Ok (true, Some ly) ->
  resolves o file a -> not_directory o a -> path_parts a d name suf -> suf <> [] ->
  (name = core /\ ~ In "_"%char core \/ exists k, name = core ++ "_"%char :: k /\ ~ In "_"%char k) ->
  ly_core ly = core /\ ly_path ly = d ++ "/"%char :: core ++ str "_%d." ++ suf.
Proof.
  intros o exist read s order1 orders file f2 rest calc dflt nv ly a d core name suf E R N P S NM. destruct (names_of _ _ _ _ _ _ _ _ _ _ _ _ _ E) as [E1 E2].
  rewrite (GetPath_parts o file a d name suf R N P), (GetCore_parts o file a d name suf R P), (GetSuffix_parts o file a d name suf R P S) in *.
  assert (CC : cut_core name = core).
  { destruct NM as [[-> NC]|(k & -> & NK)]; [|apply cut_at; exact NK]. unfold cut_core. rewrite find_last_none by exact NC. reflexivity. }
  rewrite CC in *. split; [exact E1|]. rewrite E2. rewrite <- app_assoc. reflexivity.
Qed.
Print Assumptions C98_template.

(** A name whose own last part follows an underscore: that part is lost, and two
    rasters of the directory get one template. *)
Theorem C98_underscore_refuted : forall (o : os) exist read s order1 orders file f2 rest calc dflt nv ly file' f2' rest' ly' a a' d core x y suf,
  ReadFromFiles o exist read s order1 orders (file :: f2 :: rest) calc dflt nv = Ok (true, Some ly) ->
  ReadFromFiles o exist read s order1 orders (file' :: f2' :: rest') calc dflt nv = Ok (true, Some ly') ->
  resolves o file a -> not_directory o a -> path_parts a d (core ++ "_"%char :: x) suf -> ~ In "_"%char x ->
  resolves o file' a' -> not_directory o a' -> path_parts a' d (core ++ "_"%char :: y) suf -> ~ In "_"%char y -> suf <> [] ->
  ly_core ly = core /\ ly_core ly' = core /\ ly_path ly = ly_path ly'.
Proof.
  intros o exist read s order1 orders file f2 rest calc dflt nv ly file' f2' rest' ly' a a' d core x y suf E E' R N P X R' N' P' Y S.
  destruct (C98_template o exist read s order1 orders file f2 rest calc dflt nv ly a d core _ suf E R N P S) as [C1 C2]; [right; eauto|].
  destruct (C98_template o exist read s order1 orders file' f2' rest' calc dflt nv ly' a' d core _ suf E' R' N' P' S) as [C1' C2']; [right; eauto|].
  split; [exact C1|]. split; [exact C1'|]. rewrite C2, C2'. reflexivity.
Qed.
Print Assumptions C98_underscore_refuted.
