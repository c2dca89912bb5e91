(** Raster objects in MongoDB GridFS. *)
From Coq Require Import ZArith QArith Reals Ascii String List Bool Lia Lra.
From Flocq Require Import Core BinarySingleNaN.
From Verif Require Import Base ListLib StrModel MapModel MapProofs RasterModel RasterSpec RasterProofs BasicModel FloatModel FloatProofs CoordFloatModel TypeModel MongoModel CopyModel NumModel AscModel AscSpec CellModel CellSpec CellProofs CellProofs2 GdalModel GdalProofs3 GdalProps2 GridfsModel GridfsSpec GridfsProofs2 GridfsProofs3 GridfsProofs4 GridfsProofs5 GridfsProofs6 GridfsProofs7 GridfsProps.
Import ListNotations.
Open Scope Z_scope.

(** The whole way: what is written and what is read back as arrays. *)
Lemma object_trip pick feq s ord saved st h own opts r core filename x y cs nd asked :
  finds pick -> s <> RDT_Unknown -> holds_data r -> grid_size (r_rows r) (r_cols r) -> r_nlyrs r * (r_rows r * r_cols r) <= INT_MAX ->
  object_header h r x y cs nd -> object_options own -> object_options opts -> stores_own_type s own opts -> cells_of_type s r -> saves saved ->
  let name := match filename with [] => core | _ => filename end in unused st name -> NoDup (map fst asked) ->
  (forall k v, In (k, v) asked -> k <> str "INCLUDE_NODATA" /\ k <> str "DATATYPE_OUT" /\ effective own opts k = Some v) ->
  exists f h' hs' vs, cell_major r vs /\
    OutputToMongoDB feq s ord saved st h own r core filename opts true = Ok (true, st ++ [f], r, output_options s own opts true) /\ gf_name f = name /\
    ReadGridFsFile pick s (st ++ [f]) name start InitialStrHeader (sought asked) = Ok (true, h', hs', Some vs) /\
    header_back (file_header h (r_rows r * r_cols r)) h' /\ lookup h' (str "NODATA_VALUE") = Some nd /\ options_back (output_options s own opts true) hs'.
Proof.
  intros FP U HD G SZ OH OO OP SO CT SV name UN NA AG.
  destruct (sizes_ok r HD G SZ) as (IR & IC & IL & IF & M1 & M2 & M3 & FP1 & IN). pose proof (nlyrs_pos' r HD) as NL.
  destruct (output_include s feq ord saved st h own opts r core filename x y cs nd HD G SZ OH) as (vs & CM & EO).
  destruct (options_storable s own opts true OO OP) as [OS PL]. pose proof G as (GR & GC & _).
  assert (LV : Z.of_nat (length vs) = fullsize r * r_nlyrs r) by (rewrite (proj1 CM); unfold fullsize; lia).
  assert (FV : Forall (of_type s) vs).
  { apply Forall_forall. intros v I. destruct (In_nth_error _ _ I) as [n E]. assert (n < length vs)%nat by (apply nth_error_Some; congruence).
    set (q := Z.of_nat n / r_nlyrs r). set (k := Z.of_nat n mod r_nlyrs r). assert (QK : Z.of_nat n = r_nlyrs r * q + k) by (apply Z.div_mod; lia).
    assert (K : 0 <= k < r_nlyrs r) by (apply Z.mod_pos_bound; lia). assert (Q : 0 <= q < r_rows r * r_cols r) by (unfold fullsize in LV; nia).
    set (i := q / r_cols r). set (j := q mod r_cols r). assert (IJ : q = i * r_cols r + j) by (rewrite Z.mul_comm; apply Z.div_mod; lia).
    assert (J : 0 <= j < r_cols r) by (apply Z.mod_pos_bound; lia). assert (I' : 0 <= i < r_rows r) by nia.
    destruct (proj2 CM i j (k + 1) I' J ltac:(lia)) as (v' & E' & GV). replace (Z.to_nat (r_nlyrs r * (i * r_cols r + j) + (k + 1 - 1))) with n in E' by (rewrite <- IJ; lia).
    rewrite E in E'. injection E' as <-. eapply CT; [| |exact GV]; [split; assumption|unfold layer_ok; lia]. }
  assert (RH : reader_header start) by exact g_reads.
  pose proof OP as (NO & KO & PO).
  assert (AC : agrees (sought asked) (output_options s own opts true)).
  { assert (L : forall k, lookup (sought asked) k = if beqb K_INCNODATA k then Some (str "TRUE") else lookup asked k).
    { intros k. unfold sought. destruct (lookup asked K_INCNODATA) as [w|] eqn:E.
      - apply lookup_found in E. destruct (AG _ _ E) as (N & _). exfalso. apply N. reflexivity.
      - rewrite lookup_UpdateMap, (CopyMap_lookup asked NA [] k). destruct (beqb K_INCNODATA k); [reflexivity|]. destruct (lookup asked k); reflexivity. }
    assert (NS : NoDup (map fst (sought asked))) by (unfold sought; destruct (lookup asked K_INCNODATA); [|apply UpdateMap_NoDup]; apply CopyMap_NoDup; constructor).
    split; [exact NS|]. intros k v I. apply (lookup_In _ _ _ NS) in I. rewrite L in I. rewrite (options_lookup s own opts true k NO).
    destruct (beqb K_INCNODATA k) eqn:B; [exact I|]. apply lookup_found in I. destruct (AG k v I) as (_ & N2 & EF). rewrite EF.
    replace (beqb K_OUTTYPE k) with false; [reflexivity|]. symmetry. apply beqb_false. intros <-. apply N2. reflexivity. }
  destruct (C48_round_trip pick s s s saved st name (file_header h (fullsize r)) (output_options s own opts true) vs vs vs (r_rows r) (r_cols r) (r_nlyrs r) (fullsize r) (sought asked) start InitialStrHeader)
    as (f & h' & hs' & W & FN & R & HB & NB & OB & _); auto.
  - apply (file_storable r h x y cs nd); assumption.
  - apply options_target; assumption.
  - left. auto.
  - apply (file_sizes r h x y cs nd); assumption.
  - lia.
  - lia.
  - lia.
  - lia.
  - clear - FV. induction FV; constructor; [apply cvt_own; assumption|assumption].
  - exists f, h', hs', vs. split; [exact CM|]. split.
    + rewrite EO. change (name_of core filename) with name. rewrite LV, W. reflexivity.
    + split; [exact FN|]. split; [exact R|]. split; [exact HB|]. split; [|exact OB].
      apply NB. pose proof OH as (NH & _ & _ & _ & _ & _ & _ & _ & _ & EN). rewrite (file_header_lookup h _ _ NH). exact EN.
Qed.

(** C83. A raster written with its NoData cells, its cells in their own type and
    under an unused name, is read back as the same grid, whether or not it had
    dropped its NoData cells; position, cell size, NoData value and options are
    those written, and the raster written has not changed. *)
Theorem C83_round_trip pick feq s ord ord' saved st h own opts r core filename x y cs nd asked ext dflt nv :
  finds pick -> s <> RDT_Unknown -> holds_data r -> grid_size (r_rows r) (r_cols r) -> r_nlyrs r * (r_rows r * r_cols r) <= INT_MAX ->
  object_header h r x y cs nd -> object_options own -> object_options opts -> stores_own_type s own opts ->
  cells_of_type s r -> cvt s (VD nd) = Ok (r_nodata r) -> saves saved ->
  let name := match filename with [] => core | _ => filename end in unused st name -> NoDup (map fst asked) ->
  (forall k v, In (k, v) asked -> k <> str "INCLUDE_NODATA" /\ k <> str "DATATYPE_OUT" /\ effective own opts k = Some v) ->
  exists f own' h' o' r',
    OutputToMongoDB feq s ord saved st h own r core filename opts true = Ok (true, st ++ [f], r, own') /\ gf_name f = name /\
    ReadFromMongoDB pick feq s ord' (st ++ [f]) name false None ext dflt nv asked = Ok (true, h', o', Some r') /\
    full_grid r' /\ same_grid r r' /\ r_xll r' = q_of x /\ r_yll r' = q_of y /\ r_cs r' = q_of cs /\
    r_default r' = (if feq dflt nv && negb (feq (r_nodata r) nv) then r_nodata r else dflt) /\
    (forall k v, effective own opts k = Some v -> k <> str "INCLUDE_NODATA" -> k <> str "DATATYPE_OUT" -> lookup o' k = Some v) /\
    ReadFromMongoDB pick feq s ord' (st ++ [f]) name true None ext dflt nv asked =
      obind (SetCalcPositions feq ord' r') (fun c => Ok (true, h', o', Some (fst c))).
Proof.
  intros FP U HD G SZ OH OO OP SO CT CV SV name UN NA AG.
  destruct (object_trip pick feq s ord saved st h own opts r core filename x y cs nd asked FP U HD G SZ OH OO OP SO CT SV UN NA AG) as (f & h' & hs' & vs & CM & EO & FN & R & HB & NB & OB).
  pose proof OH as (NH & _ & _ & H1 & H2 & H3 & H4 & H5 & H6 & H7). pose proof OP as (NO & _). fold name in FN, R.
  destruct (sizes_ok r HD G SZ) as (IR & IC & IL & IF & _). pose proof (nlyrs_pos' r HD) as NL.
  assert (B : forall k v, k <> K_CELLSNUM -> lookup h k = Some v -> exists y, lookup h' k = Some y /\ same_number v y).
  { intros k v N E. apply HB. rewrite (file_header_lookup h _ _ NH). destruct (beqb K_CELLSNUM k) eqn:Q; [apply beqb_true in Q; congruence|exact E]. }
  assert (BN : exists y, lookup h' K_CELLSNUM = Some y /\ same_number (of_int (r_rows r * r_cols r)) y) by (apply HB; rewrite (file_header_lookup h _ _ NH), MapProofs.beqb_refl; reflexivity).
  assert (INC : lookup hs' K_INCNODATA = Some (str "TRUE")) by (apply OB; rewrite (options_lookup s own opts true _ NO), MapProofs.beqb_refl; reflexivity).
  assert (RW : forall calc, exists rows, (r_nlyrs r <> 1 -> gather vs (r_nlyrs r) (r_rows r * r_cols r) None = Ok rows) /\
    ReadFromMongoDB pick feq s ord' (st ++ [f]) name calc None ext dflt nv asked =
    obind (CalcNoMask feq ord' (read_raster feq dflt nv r vs x y cs rows calc)) (fun m => Ok (0 <=? snd m, h', CopyMap hs' (CopyMap asked InitialStrHeader), Some (fst m)))).
  { intros calc. eapply read_with; try eassumption; first [exact BN|exact NB|apply B; [discriminate|assumption]]. }
  assert (ND : NoDup (map fst hs')). { eapply read_options_NoDup; [|exact R]. vm_compute. repeat constructor; cbn; intuition discriminate. }
  destruct (RW false) as (rows & GA & E0). destruct (RW true) as (rows1 & GA1 & E1).
  exists f, (output_options s own opts true), h', (CopyMap hs' (CopyMap asked InitialStrHeader)), (read_raster feq dflt nv r vs x y cs rows false).
  split; [exact EO|]. split; [exact FN|]. split; [rewrite E0; reflexivity|].
  split; [apply read_full; assumption|]. split; [apply read_same; assumption|]. repeat (split; [reflexivity|]). split.
  - intros k v EF N1 N2. rewrite (CopyMap_lookup hs' ND). rewrite (OB k v); [reflexivity|]. rewrite (options_lookup s own opts true _ NO), EF.
    replace (beqb K_INCNODATA k) with false by (symmetry; apply beqb_false; intros <-; apply N1; reflexivity).
    replace (beqb K_OUTTYPE k) with false by (symmetry; apply beqb_false; intros <-; apply N2; reflexivity). reflexivity.
  - rewrite E1. assert (EQ : read_raster feq dflt nv r vs x y cs rows1 true = set_pos (read_raster feq dflt nv r vs x y cs rows false) None None true false).
    { unfold read_raster, set_pos. cbn. destruct (Z.eqb_spec (r_nlyrs r) 1) as [L1|L1]; [reflexivity|]. rewrite (GA L1) in GA1. specialize (GA1 L1). injection GA1 as ->. reflexivity. }
    pose proof (read_full feq dflt nv r vs x y cs NL G CM rows false GA) as FG. unfold SetCalcPositions. pose proof FG as (_ & _ & _ & _ & ST & _). rewrite (storage_valid _ _ ST). cbn [negb].
    change (r_calc (read_raster feq dflt nv r vs x y cs rows false)) with false. cbn [andb]. rewrite EQ.
    change (r_pos (read_raster feq dflt nv r vs x y cs rows false)) with (@None (list (Z * Z))). change (r_posidx (read_raster feq dflt nv r vs x y cs rows false)) with (@None (list Z)).
    change (r_store (read_raster feq dflt nv r vs x y cs rows false)) with false.
    unfold CalcNoMask. cbn [set_pos r_calc r_pos r_posidx isnull orb]. destruct (CalculateValidPositions _ _ _) as [q| |]; reflexivity.
Qed.
Print Assumptions C83_round_trip.

(** A raster whose output type is set to none of its own: nothing is stored. *)
Theorem C49_object_refuted feq s ord saved st h own opts r core filename x y cs nd w :
  holds_data r -> grid_size (r_rows r) (r_cols r) -> r_nlyrs r * (r_rows r * r_cols r) <= INT_MAX ->
  object_header h r x y cs nd -> object_options own -> object_options opts ->
  effective own opts (str "DATATYPE_OUT") = Some w -> no_store s w -> StringMatch (str "Unknown") w = false ->
  OutputToMongoDB feq s ord saved st h own r core filename opts true = UB.
Proof.
  intros HD G SZ OH OO OP EF NS UK. destruct (sizes_ok r HD G SZ) as (_ & _ & _ & IF & _).
  destruct (output_include s feq ord saved st h own opts r core filename x y cs nd HD G SZ OH) as (vs & _ & EO). rewrite EO.
  destruct (options_storable s own opts true OO OP) as [OS _]. pose proof OP as (NO & _).
  rewrite (C49_refuted s saved st _ _ (Some vs) _ _ w); [reflexivity|apply (file_storable r h x y cs nd); assumption| |exact NS].
  rewrite (options_lookup s own opts true _ NO). change (str "DATATYPE_OUT") with K_OUTTYPE in EF |- *. rewrite EF, UK, andb_false_r. reflexivity.
Qed.
Print Assumptions C49_object_refuted.

(** Rasters built from an array start with the option empty: writing one to GridFS
    without giving the type is undefined behaviour. *)
Theorem C49_built_refuted feq s ord saved st h opts r core filename x y cs nd :
  s <> RDT_Unknown -> holds_data r -> grid_size (r_rows r) (r_cols r) -> r_nlyrs r * (r_rows r * r_cols r) <= INT_MAX ->
  object_header h r x y cs nd -> object_options opts -> lookup opts (str "DATATYPE_OUT") = None ->
  OutputToMongoDB feq s ord saved st h InitialStrHeader r core filename opts true = UB.
Proof.
  intros U HD G SZ OH OP E. apply (C49_object_refuted feq s ord saved st h InitialStrHeader opts r core filename x y cs nd []); auto.
  - split; [vm_compute; repeat constructor; cbn; intuition discriminate|]. split; [intros k I; vm_compute in I |- *; intuition congruence|].
    intros k v I. vm_compute in I. left. intuition congruence.
  - unfold effective. rewrite E. reflexivity.
  - split; [vm_compute; congruence|left; reflexivity].
Qed.
Print Assumptions C49_built_refuted.

(** C84. Files holding valid cells only, which is what writing without NoData
    makes, are never read without a mask. *)
Theorem C84_needs_mask pick feq s ord st name calc ext dflt nv asked h o r :
  finds pick ->
  (forall f, In f st -> gf_name f = name -> NoDup (map fst (gf_meta f)) /\ In (str "INCLUDE_NODATA", BUtf8 (str "FALSE")) (gf_meta f)) ->
  ReadFromMongoDB pick feq s ord st name calc None ext dflt nv asked <> Ok (true, h, o, r).
Proof.
  intros FP FS E. unfold ReadFromMongoDB in E. cbv zeta in E. fold start in E. fold (sought asked) in E.
  destruct (ReadGridFsFile pick s st name start InitialStrHeader (sought asked)) as [[[[ok h'] hs'] d]| |] eqn:R; cbn [obind] in E; try discriminate.
  destruct ok; cbn [negb] in E; [|discriminate].
  assert (INC : lookup hs' K_INCNODATA = Some (str "FALSE") /\ NoDup (map fst hs')).
  { split; [|eapply read_options_NoDup; [|exact R]; vm_compute; repeat constructor; cbn; intuition discriminate].
    unfold ReadGridFsFile in R. step R. destruct a as [f|]; [|discriminate].
    assert (IF : In f st /\ gf_name f = name).
    { unfold GetFile in H. step H. injection H as H. pose proof (FP (filter (matches name a) st)) as P. rewrite H in P. apply filter_In in P. destruct P as [I M]. split; [exact I|].
      unfold matches in M. apply andb_true_iff in M. destruct M as [M _]. apply beqb_true in M. congruence. }
    destruct (FS f (proj1 IF) (proj2 IF)) as [ND IN]. destruct (read_meta_lookup _ ND start InitialStrHeader) as [_ B].
    apply (lookup_In _ _ _ ND) in IN. specialize (B K_INCNODATA). change (lookup start K_INCNODATA) with (@None f64) in B. cbv iota in B.
    change (str "INCLUDE_NODATA") with K_INCNODATA in IN. rewrite IN in B. cbn [GetStringFromBsonIterator] in B.
    destruct (read_meta (gf_meta f) start InitialStrHeader) as [h1 hs1]. cbn [snd] in B.
    repeat step R; cbv zeta in R; destruct (RasterDataTypeInOptionals hs1); repeat step R; try discriminate R; injection R as <- <- <-; exact B. }
  destruct INC as [INC ND]. unfold at_get at 1 in E. rewrite (CopyMap_lookup hs' ND), INC in E. cbn [obind] in E.
  change (StringMatch (str "FALSE") (str "FALSE")) with true in E. cbn [negb andb isnull orb] in E.
  repeat step E; discriminate.
Qed.
Print Assumptions C84_needs_mask.

(** C83. A file that is not marked as holding valid cells only is read only if it
    holds one value per cell of its grid, whatever the mask. *)
Theorem C83_whole_grid pick feq s ord st name calc mask ext dflt nv asked h o r inc :
  ReadFromMongoDB pick feq s ord st name calc mask ext dflt nv asked = Ok (true, h, o, r) ->
  lookup o (str "INCLUDE_NODATA") = Some inc -> StringMatch inc (str "FALSE") = false ->
  exists dr dc dn rows cols, lookup h (str "NROWS") = Some dr /\ lookup h (str "NCOLS") = Some dc /\ lookup h (str "CELLSNUM") = Some dn /\
  f_int dr = Ok rows /\ f_int dc = Ok cols /\ f_int dn = Ok (rows * cols).
Proof.
  intros E LI SM. unfold ReadFromMongoDB in E. cbv zeta in E.
  destruct (ReadGridFsFile pick s st name _ InitialStrHeader _) as [[[[ok h'] hs'] d]| |]; cbn [obind] in E; try discriminate.
  destruct ok; cbn [negb] in E; [|discriminate].
  set (own := CopyMap hs' (CopyMap asked InitialStrHeader)) in *.
  assert (HO : h' = h /\ own = o).
  { repeat step E; try discriminate E; repeat (match type of E with context [if ?c then _ else _] => destruct c | context [match ?c with None => _ | Some _ => _ end] => destruct c end; repeat step E; try discriminate E);
      injection E; intros; subst; auto. }
  destruct HO as [-> HO]. unfold at_get at 1 in E. rewrite HO in E. change K_INCNODATA with (str "INCLUDE_NODATA") in E. rewrite LI in E. cbn [obind] in E.
  rewrite SM in E. cbn [negb] in E.
  unfold at_get in E. change K_NROWS with (str "NROWS") in E. change K_NCOLS with (str "NCOLS") in E. change K_CELLSNUM with (str "CELLSNUM") in E.
  destruct (lookup h (str "NROWS")) as [dr|]; cbn [obind] in E; [|discriminate]. destruct (f_int dr) as [rows| |] eqn:E1; cbn [obind] in E; try discriminate.
  destruct (lookup h (str "NCOLS")) as [dc|]; cbn [obind] in E; [|discriminate]. destruct (f_int dc) as [cols| |] eqn:E2; cbn [obind] in E; try discriminate.
  step E. step E. unfold imul in E. destruct (in_intb (rows * cols)); cbn [obind] in E; [|discriminate].
  step E. step E.
  destruct (lookup h (str "CELLSNUM")) as [dn|]; cbn [obind] in E; [|discriminate]. destruct (f_int dn) as [cells| |] eqn:E3; cbn [obind] in E; try discriminate.
  step E. step E. step E. cbn [andb] in E. destruct (Z.eqb_spec cells (rows * cols)) as [->|]; cbn [negb] in E; [|discriminate].
  exists dr, dc, dn, rows, cols. repeat split; auto.
Qed.
Print Assumptions C83_whole_grid.
