(** Arrays of values in MongoDB GridFS. *)
From Coq Require Import ZArith Reals Ascii String List Bool Lia Lra.
From Flocq Require Import Core BinarySingleNaN.
From Verif Require Import Base StrModel MapModel MapProofs RasterModel BasicModel FloatModel FloatProofs CoordFloatModel TypeModel MongoModel CopyModel NumModel CellModel CellSpec CellProofs CellProofs2 GdalModel GdalProofs3 GridfsModel GridfsSpec GridfsProofs2 GridfsProofs3 GridfsProofs4.
Import ListNotations.
Open Scope Z_scope.

(** C48. Values written under an unused name are stored as one more file, the
    other files staying; a reader of any type [u] asking for options that agree
    with those written gets the header, the options and the values back, converted
    from type [s] to the stored type [t] and from there to [u]. *)
Theorem C48_round_trip pick s t u saved st name h opts vs ws xs rows cols lyrs cells asked h0 hs0 :
  finds pick -> s <> RDT_Unknown -> storable h opts -> target s opts t ->
  Forall (of_type s) vs -> converted s t vs ws -> saves saved ->
  sizes h rows cols lyrs cells -> 0 <= rows -> 0 <= cols -> 0 < lyrs -> 0 < cells ->
  Z.of_nat (length vs) = cells * lyrs -> in_int (cells * lyrs) ->
  Forall2 (fun w x => cvt u w = Ok x) ws xs -> reader_header h0 -> agrees asked opts -> unused st name ->
  exists f h' hs',
    WriteStreamDataAsGridfs s saved st name h (Some vs) (cells * lyrs) opts = Ok (true, st ++ [f]) /\ gf_name f = name /\
    ReadGridFsFile pick u (st ++ [f]) name h0 hs0 asked = Ok (true, h', hs', Some xs) /\
    header_back h h' /\ (forall x, lookup h (str "NODATA_VALUE") = Some x -> lookup h' (str "NODATA_VALUE") = Some x) /\
    options_back opts hs' /\ exists w, lookup hs' (str "DATATYPE_OUT") = Some w /\ StringToRasterDataType w = t.
Proof.
  intros FP U ST T FV C SV SZ R0 C0 L0 CE LEN IN FX RH AG UN. pose proof ST as (N1 & N2 & K1 & K2 & FM & PO).
  assert (OC : forall k v, lookup opts k = Some v -> lookup (cur s opts) k = Some v) by (intros k v E; rewrite (cur_lookup s opts k N2), E; reflexivity).
  assert (AC : agrees asked (cur s opts)) by (destruct AG as [A B]; split; [exact A|]; intros k v I; apply OC, B, I).
  destruct (trip pick s t u saved st name h opts vs ws xs rows cols lyrs cells asked h0 hs0 FP U ST T FV C SV SZ R0 C0 L0 CE LEN IN FX RH AC (unused_ok st name _ _ UN))
    as (st' & W & E & h' & hs' & R & HB & OB).
  assert (FS : filter (fun g => negb (matches name (curq s opts) g)) st = st).
  { clear - UN. unfold unused in UN. induction st as [|g st IH]; [reflexivity|]. cbn [filter].
    replace (matches name (curq s opts) g) with false; [cbn [negb]; f_equal; apply IH; intros x I; apply UN; right; exact I|].
    symmetry. unfold matches. destruct (beqb name (gf_name g)) eqn:B; [|reflexivity]. apply beqb_true in B. exfalso. exact (UN g (or_introl eq_refl) (eq_sym B)). }
  rewrite FS in E. subst st'. exists (written s t name h opts ws), h', hs'. rewrite <- LEN. split; [exact W|]. split; [reflexivity|]. split; [exact R|].
  split; [intros k x L; destruct (HB k x L) as (y & A & B & _); eauto|]. split; [intros x L; destruct (HB _ x L) as (y & A & _ & B); rewrite A; f_equal; apply B; reflexivity|].
  split; [intros k v L; apply OB, OC, L|]. destruct (target_cur s opts t N2 T U) as (w & A & B). exists w. split; [apply OB; exact A|exact B].
Qed.
Print Assumptions C48_round_trip.

(** Without conversions the values come back as they are. *)
Theorem C48_same_values pick s saved st name h opts vs rows cols lyrs cells asked h0 hs0 :
  finds pick -> s <> RDT_Unknown -> storable h opts -> lookup opts (str "DATATYPE_OUT") = None ->
  Forall (of_type s) vs -> saves saved ->
  sizes h rows cols lyrs cells -> 0 <= rows -> 0 <= cols -> 0 < lyrs -> 0 < cells ->
  Z.of_nat (length vs) = cells * lyrs -> in_int (cells * lyrs) -> reader_header h0 -> agrees asked opts -> unused st name ->
  exists st' h' hs',
    WriteStreamDataAsGridfs s saved st name h (Some vs) (cells * lyrs) opts = Ok (true, st') /\
    ReadGridFsFile pick s st' name h0 hs0 asked = Ok (true, h', hs', Some vs) /\ header_back h h' /\ options_back opts hs'.
Proof.
  intros FP U ST T FV SV SZ R0 C0 L0 CE LEN IN RH AG UN.
  destruct (C48_round_trip pick s s s saved st name h opts vs vs vs rows cols lyrs cells asked h0 hs0) as (f & h' & hs' & W & _ & R & HB & _ & OB & _); auto.
  - left. auto.
  - left. auto.
  - clear - FV. induction FV; constructor; [apply cvt_own; assumption|assumption].
  - exists (st ++ [f]), h', hs'. auto.
Qed.
Print Assumptions C48_same_values.

(** Which stored files are read: [cells * lyrs] values of the recorded type, and
    fewer than [cells * lyrs] further bytes. *)
Theorem C48_accepts pick st name f rows cols lyrs cells t h0 hs0 :
  finds pick -> sole st name f -> describes f rows cols lyrs cells t -> t <> RDT_Unknown -> reader_header h0 ->
  0 <= rows -> 0 <= cols -> 0 < lyrs -> 0 < cells -> in_int (cells * lyrs) ->
  exists ok h' hs' d, ReadGridFsFile pick t st name h0 hs0 [] = Ok (ok, h', hs', d) /\
    (ok = true <-> size_of t * (cells * lyrs) <= Z.of_nat (length (gf_data f)) < (size_of t + 1) * (cells * lyrs)) /\
    (ok = true -> exists vs, d = Some vs /\ Z.of_nat (length vs) = cells * lyrs).
Proof. apply accept. Qed.
Print Assumptions C48_accepts.

(** A file without cells or layers makes every reader divide by zero. *)
Theorem C48_zero_refuted pick s st name f rows cols lyrs cells t h0 hs0 :
  finds pick -> sole st name f -> describes f rows cols lyrs cells t -> reader_header h0 ->
  0 <= rows -> 0 <= cols -> 0 <= lyrs -> cells = 0 \/ lyrs = 0 -> ReadGridFsFile pick s st name h0 hs0 [] = UB.
Proof.
  intros FP SO DE RH R0 C0 L0 [-> | ->]; eapply zero_count; eauto; lia.
Qed.
Print Assumptions C48_zero_refuted.

(** A whole header number outside int, a far corner in millimetres say, cannot be
    written. *)
Theorem C48_header_refuted s saved st name h values n opts k x :
  (forall k', In k' (map fst h) -> In k' header_keys) -> NoDup (map fst opts) -> (forall k v, In (k, v) opts -> plain_option v) ->
  In (k, x) h -> k <> str "NODATA_VALUE" -> whole x -> ~ (IZR INT_MIN <= B2R x <= IZR INT_MAX)%R ->
  WriteStreamDataAsGridfs s saved st name h values n opts = UB.
Proof. intros K N P I NK W B. exact (wide_header s saved st name h values n opts k x K N P I NK W B). Qed.
Print Assumptions C48_header_refuted.

(** C49. Under an empty or unknown type text, and under a 64-bit integer type
    other than that of the values, nothing can be stored: the driver is handed a
    null buffer and a negative length. *)
Theorem C49_refuted s saved st name h values n opts w :
  storable h opts -> lookup opts (str "DATATYPE_OUT") = Some w -> no_store s w ->
  WriteStreamDataAsGridfs s saved st name h values n opts = UB.
Proof. intros S E N. exact (no_type s saved st name h values n opts w S E N). Qed.
Print Assumptions C49_refuted.

(** C82. Writing again with the same options replaces the file: of the files of
    that name labelled with these options only the new one is left; files under
    other names stay, and so do those of the same name that lack one of the options
    or have another text for it. Reading by these options finds the new file. *)
Theorem C82_replaced pick s t saved st name h opts vs ws rows cols lyrs cells h0 hs0 :
  finds pick -> s <> RDT_Unknown -> storable h opts -> lookup opts (str "DATATYPE_OUT") <> None -> target s opts t ->
  Forall (of_type s) vs -> converted s t vs ws -> saves saved ->
  sizes h rows cols lyrs cells -> 0 <= rows -> 0 <= cols -> 0 < lyrs -> 0 < cells ->
  Z.of_nat (length vs) = cells * lyrs -> in_int (cells * lyrs) -> reader_header h0 ->
  exists kept f h' hs',
    WriteStreamDataAsGridfs s saved st name h (Some vs) (cells * lyrs) opts = Ok (true, kept ++ [f]) /\ gf_name f = name /\ labelled f opts /\
    ReadGridFsFile pick t (kept ++ [f]) name h0 hs0 opts = Ok (true, h', hs', Some ws) /\ header_back h h' /\ options_back opts hs' /\
    (forall g, In g kept -> In g st) /\
    (forall g, In g st -> gf_name g = name -> labelled g opts -> ~ In g kept) /\
    (forall g, In g st -> gf_name g <> name -> In g kept) /\
    (forall g k v, In g st -> lookup opts k = Some v -> bson_find (gf_meta g) k = None -> In g kept) /\
    (forall g k v other v', In g st -> lookup opts k = Some v -> labelled g other -> lookup other k = Some v' -> v' <> v -> In g kept).
Proof.
  intros FP U ST TO T FV C SV SZ R0 C0 L0 CE LEN IN RH. pose proof ST as (N1 & N2 & K1 & K2 & FM & PO).
  assert (CU : forall k, lookup (cur s opts) k = lookup opts k).
  { intros k. rewrite (cur_lookup s opts k N2). destruct (lookup opts k) eqn:E; [reflexivity|]. destruct (beqb K_OUTTYPE k) eqn:B; [|reflexivity].
    apply beqb_true in B. subst k. exfalso. apply TO. exact E. }
  assert (AC : agrees opts (cur s opts)) by (split; [exact N2|]; intros k v I; rewrite CU; apply lookup_In; assumption).
  assert (TT : Forall2 (fun w x => cvt t w = Ok x) ws ws).
  { pose proof (converted_type s t vs ws C FV) as F. clear - F. induction F; constructor; [apply cvt_own; assumption|assumption]. }
  assert (CO : covers opts (cur s opts)) by (intros k v E; rewrite CU in E; exact E).
  destruct (trip pick s t t saved st name h opts vs ws ws rows cols lyrs cells opts h0 hs0 FP U ST T FV C SV SZ R0 C0 L0 CE LEN IN TT RH AC
     (covers_ok st name opts (cur s opts) (cur_NoDup s opts) CO)) as (st' & W & E & h' & hs' & R & HB & OB).
  subst st'. exists (filter (fun g => negb (matches name (curq s opts) g)) st), (written s t name h opts ws), h', hs'. rewrite <- LEN.
  assert (PL : forall k v, lookup opts k = Some v -> plain_option v) by (intros k v L; apply (PO k), lookup_found; exact L).
  assert (QI : forall k v, lookup opts k = Some v -> In (k, optv v) (curq s opts)).
  { intros k v L. unfold curq. apply in_map_iff. exists (k, v). split; [reflexivity|]. apply lookup_found. rewrite CU. exact L. }
  split; [exact W|]. split; [reflexivity|]. split.
  { intros k v L. split; [exact (PL k v L)|]. cbn [gf_meta written]. rewrite find_lookup, meta_lookup, CU, L.
    replace (lookup h k) with (@None f64); [eexists; split; [reflexivity|]; apply optv_stored, (PL k v L)|].
    symmetry. apply lookup_none. intros J. apply (K2 k); [change k with (fst (k, v)); apply in_map, lookup_found; exact L|apply K1; exact J]. }
  split; [exact R|]. split; [intros k x L; destruct (HB k x L) as (y & A & B & _); eauto|].
  split; [intros k v L; apply OB; rewrite CU; exact L|]. split; [intros g I; apply filter_In in I; tauto|]. split; [|split; [|split]].
  - intros g I EQ H J. apply filter_In in J. destruct J as [_ J]. apply negb_true_iff in J.
    assert (M : matches name (curq s opts) g = true); [|congruence]. unfold matches. rewrite EQ, MapProofs.beqb_refl. cbn [andb].
    apply forallb_forall. intros [k q] Q. unfold curq in Q. apply in_map_iff in Q. destruct Q as ([k' v] & E & Q). injection E as <- <-. cbn [fst snd].
    apply (lookup_In _ _ _ (cur_NoDup s opts)) in Q. rewrite CU in Q. destruct (H k' v Q) as (P & w & F & S). rewrite F, (stored_optv v w P S), optv_same, MapProofs.beqb_refl by assumption. reflexivity.
  - intros g I NE. apply filter_In. split; [exact I|]. unfold matches. destruct (beqb name (gf_name g)) eqn:B; [|reflexivity]. apply beqb_true in B. congruence.
  - intros g k v I L F. apply filter_In. split; [exact I|]. apply negb_true_iff. destruct (matches name (curq s opts) g) eqn:M; [|reflexivity].
    unfold matches in M. apply andb_true_iff in M. destruct M as [_ M]. rewrite forallb_forall in M. specialize (M _ (QI k v L)). cbn [fst snd] in M. rewrite F in M. discriminate.
  - intros g k v other v' I L LB L' NE. apply filter_In. split; [exact I|]. apply negb_true_iff. destruct (matches name (curq s opts) g) eqn:M; [|reflexivity].
    unfold matches in M. apply andb_true_iff in M. destruct M as [_ M]. rewrite forallb_forall in M. specialize (M _ (QI k v L)). cbn [fst snd] in M.
    destruct (LB k v' L') as (P & w & F & S). rewrite F, (stored_optv v' w P S), optv_same in M by (assumption || exact (PL k v L)). apply beqb_true in M. congruence.
Qed.
Print Assumptions C82_replaced.

(** Writing under a name in use with an option changed does not replace: readers
    asking by name and finding the first file see the old one, as if nothing had
    been written. *)
Theorem C82_other_option_refuted s t saved st name h opts vs ws g k v other v' :
  s <> RDT_Unknown -> storable h opts -> target s opts t -> converted s t vs ws -> saves saved ->
  sole st name g -> lookup opts k = Some v -> labelled g other -> lookup other k = Some v' -> v' <> v ->
  exists st', WriteStreamDataAsGridfs s saved st name h (Some vs) (Z.of_nat (length vs)) opts = Ok (true, st') /\
    forall u h0 hs0, ReadGridFsFile (@hd_error gfile) u st' name h0 hs0 [] = ReadGridFsFile (@hd_error gfile) u st name h0 hs0 [].
Proof.
  intros U ST T C SV SO L LB L' NE. pose proof ST as (N1 & N2 & K1 & K2 & FM & PO).
  eexists. split; [apply (write_ok s t saved st name h vs ws opts U ST T C SV)|].
  assert (M : matches name (curq s opts) g = false).
  { destruct (matches name (curq s opts) g) eqn:M; [|reflexivity]. unfold matches in M. apply andb_true_iff in M. destruct M as [_ M]. rewrite forallb_forall in M.
    assert (QI : In (k, optv v) (curq s opts)) by (apply in_map_iff; exists (k, v); split; [reflexivity|]; apply lookup_found; rewrite (cur_lookup s opts k N2), L; reflexivity).
    specialize (M _ QI). cbn [fst snd] in M. assert (PV : plain_option v) by (apply (PO k), lookup_found; exact L).
    destruct (LB k v' L') as (P & w & F & S). rewrite F, (stored_optv v' w P S), optv_same in M by assumption. apply beqb_true in M. congruence. }
  assert (SK : sole (filter (fun g => negb (matches name (curq s opts) g)) st) name g).
  { destruct SO as (I & N & S). split; [apply filter_In; rewrite M; auto|]. split; [exact N|]. intros x J. apply filter_In in J. apply S. tauto. }
  intros u h0 hs0. assert (G : forall l l', sole l name g -> GetFile (@hd_error gfile) (l ++ l') name [] = Ok (Some g)).
  { intros l l' S. unfold GetFile. change (query []) with (@Ok bson []). cbn [obind]. rewrite filter_app, (first_app _ _ _ g); [reflexivity|apply first_sole; exact S]. }
  unfold ReadGridFsFile. rewrite (G _ _ SK). pose proof (G st [] SO) as G0. rewrite app_nil_r in G0. rewrite G0. reflexivity.
Qed.
Print Assumptions C82_other_option_refuted.

(** ** Cases *)

(** Two rows of three cells, in two layers; the corner lies half a unit off. *)
Definition g_header : smap f64 :=
  [(str "NCOLS", of_int 3); (str "NROWS", of_int 2); (str "XLLCENTER", fdiv (of_int 1) (of_int 2)); (str "YLLCENTER", of_int (-7));
   (str "CELLSIZE", of_int 30); (str "NODATA_VALUE", of_int (-99)); (str "LAYERS", of_int 2); (str "CELLSNUM", of_int 6)].
Definition g_opts : smap bytes := [(str "UNITS", str "m"); (str "YEAR", str "1999"); (str "SRS", [])].
Definition g_typed : smap bytes := (str "DATATYPE_OUT", str "INT16") :: g_opts.
Definition g_values : list num := map VI [1; 2; 3; -4; 5; -99; 7; 8; 9; 10; 11; 12].
Definition g_reader : smap f64 := map (fun kv => (fst kv, of_int (snd kv))) InitialHeader.
Definition g_old : gfile := mkGfile (str "dem") [(str "UNITS", BUtf8 (str "ft")); (str "DATATYPE_OUT", BUtf8 (str "INT16"))] [].
Definition third_time (k : nat) : bool := Nat.eqb k 1.

Ltac plain_text := right; left; vm_compute; discriminate.
Lemma g_int (k : bytes) z : in_int z -> fits_meta k (of_int z).
Proof.
  intros I. right. destruct (of_int_exact z) as [F E]; [unfold in_int, INT_MIN, INT_MAX in I; lia|]. split; [exact F|]. intros _. rewrite E. split; apply IZR_le; apply I.
Qed.
Lemma g_half k : fits_meta k (fdiv (of_int 1) (of_int 2)).
Proof.
  right. split; [reflexivity|]. intros _. replace (B2R (fdiv (of_int 1) (of_int 2))) with (/ 2)%R; [unfold INT_MIN, INT_MAX; lra|].
  destruct (fdiv (of_int 1) (of_int 2)) as [| | |sg m e H] eqn:E; try discriminate (f_equal is_finite E).
  all: apply (f_equal B2SF) in E; vm_compute in E; try discriminate. injection E as <- <- <-. cbn [B2R]. unfold F2R. cbn. lra.
Qed.
Lemma g_storable opts : opts = g_opts \/ opts = g_typed -> storable g_header opts.
Proof.
  intros O.
  assert (H : NoDup (map fst g_header) /\ (forall k, In k (map fst g_header) -> In k header_keys) /\ (forall k x, In (k, x) g_header -> fits_meta k x)).
  { repeat split.
    - repeat constructor; vm_compute; intuition discriminate.
    - intros k I. vm_compute in I |- *. exact I.
    - intros k x I. unfold g_header in I. repeat (destruct I as [I|I]; [apply pair_equal_spec in I; destruct I as [<- <-]; first [apply g_int; unfold in_int, INT_MIN, INT_MAX; lia|apply g_half]|]). destruct I. }
  destruct H as (A & B & C). split; [exact A|]. split; [|split; [exact B|]].
  { destruct O as [-> | ->]; repeat constructor; vm_compute; intuition discriminate. }
  split; [|split; [exact C|]].
  - intros k I J. destruct O as [-> | ->]; vm_compute in I, J; intuition congruence.
  - assert (P : forall k v, In (k, v) g_opts -> plain_option v).
    { intros k v I. destruct I as [I|[I|[I|[]]]]; injection I as <- <-.
      - plain_text.
      - right. right. exists 1999. split; [unfold in_int, INT_MIN, INT_MAX; lia|reflexivity].
      - left. reflexivity. }
    intros k v I. destruct O as [-> | ->]; [exact (P k v I)|]. destruct I as [I|I]; [|exact (P k v I)]. injection I as <- <-. plain_text.
Qed.
Lemma g_sizes : sizes g_header 2 3 2 6.
Proof. repeat split; unfold INT_MIN, INT_MAX; lia. Qed.
Lemma g_reads : reader_header g_reader.
Proof. intros k. vm_compute. tauto. Qed.
Lemma g_finds : finds (@hd_error gfile).
Proof. intros [|f l]; cbn; auto. Qed.
Lemma g_saves : saves third_time.
Proof. exists 1%nat. split; [lia|reflexivity]. Qed.
Lemma g_int16 : Forall (of_type RDT_Int16) g_values.
Proof. repeat constructor; vm_compute; discriminate. Qed.

(** [C48_same_values] on 16-bit integers beside another file, the third attempt to
    save succeeding; asked for by year. *)
Example C48_case : exists st' h' hs',
  WriteStreamDataAsGridfs RDT_Int16 third_time [g_old] (str "slope") g_header (Some g_values) 12 g_opts = Ok (true, st') /\
  ReadGridFsFile (@hd_error gfile) RDT_Int16 st' (str "slope") g_reader [] [(str "YEAR", str "1999")] = Ok (true, h', hs', Some g_values) /\
  header_back g_header h' /\ options_back g_opts hs'.
Proof.
  apply (C48_same_values (@hd_error gfile) RDT_Int16 third_time [g_old] (str "slope") g_header g_opts g_values 2 3 2 6); try lia; try reflexivity.
  - exact g_finds.
  - discriminate.
  - apply g_storable. auto.
  - exact g_int16.
  - exact g_saves.
  - exact g_sizes.
  - unfold in_int, INT_MIN, INT_MAX. lia.
  - exact g_reads.
  - split; [repeat constructor; intros []|]. intros k v [E|[]]. injection E as <- <-. reflexivity.
  - intros f [<-|[]]. discriminate.
Qed.

(** Two bytes a value make 24 bytes: 24 to 35 are accepted, 23 and 36 are not. *)
Definition g_stored (n : nat) : gfile :=
  mkGfile (str "slope") [(str "NROWS", BInt32 2); (str "NCOLS", BInt32 3); (str "LAYERS", BInt32 2); (str "CELLSNUM", BInt32 6); (str "DATATYPE_OUT", BUtf8 (str "INT16"))]
    (repeat "001"%char n).
Definition accepted (x : outcome (bool * smap f64 * smap bytes * option (list num))) : option bool :=
  match x with Ok (b, _, _, _) => Some b | _ => None end.
Example C48_lengths : map (fun n => accepted (ReadGridFsFile (@hd_error gfile) RDT_Int16 [g_old; g_stored n] (str "slope") g_reader [] [])) [23; 24; 35; 36]%nat
  = [Some false; Some true; Some true; Some false].
Proof. vm_compute. reflexivity. Qed.
Example C48_described n : describes (g_stored n) 2 3 2 6 RDT_Int16 /\ sole [g_old; g_stored n] (str "slope") (g_stored n).
Proof.
  split.
  - repeat split; try (unfold in_int, INT_MIN, INT_MAX; lia); try (vm_compute; tauto); try (vm_compute; discriminate).
    + repeat constructor; vm_compute; intuition discriminate.
    + exists (str "INT16"). split; [vm_compute; tauto|reflexivity].
  - split; [right; left; reflexivity|]. split; [reflexivity|]. intros g [<-|[<-|[]]] E; [discriminate|reflexivity].
Qed.

(** A file without cells, as written for a raster whose cells are all NoData. *)
Definition g_empty : gfile :=
  mkGfile (str "slope") [(str "NROWS", BInt32 2); (str "NCOLS", BInt32 3); (str "LAYERS", BInt32 1); (str "CELLSNUM", BInt32 0); (str "DATATYPE_OUT", BUtf8 (str "INT16"))] [].
Example C48_zero_case : ReadGridFsFile (@hd_error gfile) RDT_Int16 [g_empty] (str "slope") g_reader [] [] = UB.
Proof.
  apply (C48_zero_refuted (@hd_error gfile) RDT_Int16 [g_empty] (str "slope") g_empty 2 3 1 0 RDT_Int16); try lia.
  - exact g_finds.
  - split; [left; reflexivity|]. split; [reflexivity|]. intros g [<-|[]] _. reflexivity.
  - repeat split; try (unfold in_int, INT_MIN, INT_MAX; lia); try (vm_compute; tauto); try (vm_compute; discriminate).
    + repeat constructor; vm_compute; intuition discriminate.
    + exists (str "INT16"). split; [vm_compute; tauto|reflexivity].
  - exact g_reads.
Qed.

(** A corner three billion units away. *)
Example C48_header_case saved st values n : WriteStreamDataAsGridfs RDT_Int16 saved st (str "slope") [(str "XLLCENTER", of_int 3000000000)] values n g_opts = UB.
Proof.
  destruct (g_storable g_opts (or_introl eq_refl)) as (_ & N & _ & _ & _ & P). destruct (of_int_exact 3000000000) as [F E]; [lia|].
  apply (C48_header_refuted RDT_Int16 saved st _ _ values n g_opts (str "XLLCENTER") (of_int 3000000000)); auto.
  - intros k [<-|[]]. vm_compute. tauto.
  - left. reflexivity.
  - discriminate.
  - split; [exact F|]. exists 3000000000. exact E.
  - rewrite E. intros [_ H]. apply le_IZR in H. unfold INT_MAX in H. lia.
Qed.

(** The empty type text, and 64-bit integers. *)
Example C49_case : no_store RDT_Int16 [] /\ no_store RDT_Int32 (str "INT64") /\ ~ no_store RDT_Int64 (str "INT64") /\ ~ no_store RDT_Int32 (str "FLOAT").
Proof.
  unfold no_store. cbv zeta. split; [|split; [|split]].
  - split; [vm_compute; discriminate|left; reflexivity].
  - split; [vm_compute; discriminate|right; right; reflexivity].
  - intros [H _]. apply H. reflexivity.
  - intros [_ [H|[H|H]]]; vm_compute in H; discriminate.
Qed.
Example C49_case_refuted saved st values n : WriteStreamDataAsGridfs RDT_Int16 saved st (str "slope") g_header values n [(str "DATATYPE_OUT", [])] = UB.
Proof.
  destruct (g_storable g_opts (or_introl eq_refl)) as (A & _ & B & _ & C & _).
  apply (C49_refuted RDT_Int16 saved st _ g_header values n _ []); [|reflexivity|apply C49_case].
  split; [exact A|]. split; [repeat constructor; intros []|]. split; [exact B|]. split; [intros k [<-|[]]; vm_compute; intuition discriminate|].
  split; [exact C|]. intros k v [E|[]]. injection E as <- <-. left. reflexivity.
Qed.

(** Twice under the same name and options: one file; with the units changed: two. *)
Definition count (x : outcome (bool * list gfile)) : option (bool * nat) := match x with Ok (b, st) => Some (b, length st) | _ => None end.
Definition again (opts : smap bytes) : outcome (bool * list gfile) :=
  obind (WriteStreamDataAsGridfs RDT_Int16 third_time [] (str "slope") g_header (Some g_values) 12 g_typed)
    (fun w => WriteStreamDataAsGridfs RDT_Int16 third_time (snd w) (str "slope") g_header (Some g_values) 12 opts).
Example C82_case : count (again g_typed) = Some (true, 1%nat) /\ count (again (UpdateMap g_typed (str "UNITS") (str "ft"))) = Some (true, 2%nat) /\
  storable g_header g_typed /\ target RDT_Int16 g_typed RDT_Int16 /\ converted RDT_Int16 RDT_Int16 g_values g_values /\
  labelled g_old [(str "UNITS", str "ft")].
Proof.
  split; [vm_compute; reflexivity|]. split; [vm_compute; reflexivity|]. split; [apply g_storable; auto|]. split.
  - right. exists (str "INT16"). split; reflexivity.
  - split; [left; split; reflexivity|]. intros k v L. apply lookup_found in L. destruct L as [L|[]]. injection L as <- <-. split; [plain_text|].
    exists (BUtf8 (str "ft")). split; [reflexivity|]. left. split; [|reflexivity]. intros z I E.
    pose proof (optv_int z I) as F. rewrite <- E in F. vm_compute in F. discriminate.
Qed.
