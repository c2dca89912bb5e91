(** Writing and reading an array of values. *)
From Coq Require Import ZArith Reals Ascii String List Bool Lia Lra ZifyBool.
From Flocq Require Import Core BinarySingleNaN.
From Verif Require Import Base ListLib StrModel StrProofs MapModel MapProofs RasterModel BasicModel FloatModel FloatProofs CoordFloatModel TypeModel MongoModel MongoProofs CopyModel NumModel NumProofs AscModel AscProofs CellModel CellSpec CellProofs CellProofs2 GdalModel GdalProofs3 GridfsModel GridfsSpec GridfsProofs GridfsProofs2.
Import ListNotations.
Open Scope Z_scope.
Open Scope outcome_scope.

(** ** The options written *)
Definition cur (s : rdt) (opts : smap bytes) : smap bytes :=
  let copied := CopyMap opts [] in
  match lookup copied K_OUTTYPE with
  | None => UpdateMap copied K_OUTTYPE (RasterDataTypeToString s)
  | Some _ => copied
  end.

Lemma cur_lookup s opts k : NoDup (map fst opts) ->
  lookup (cur s opts) k = match lookup opts k with Some v => Some v | None => if beqb K_OUTTYPE k then Some (RasterDataTypeToString s) else None end.
Proof.
  intros N. unfold cur. cbv zeta. rewrite (CopyMap_lookup opts N [] K_OUTTYPE). cbn [lookup].
  destruct (lookup opts K_OUTTYPE) as [w|] eqn:E.
  - rewrite (CopyMap_lookup opts N [] k). cbn [lookup]. destruct (lookup opts k) eqn:F; [reflexivity|].
    destruct (beqb K_OUTTYPE k) eqn:B; [|reflexivity]. apply beqb_true in B. subst k. congruence.
  - rewrite lookup_UpdateMap, (CopyMap_lookup opts N [] k). cbn [lookup]. destruct (beqb K_OUTTYPE k) eqn:B.
    + apply beqb_true in B. subst k. rewrite E. reflexivity.
    + destruct (lookup opts k); reflexivity.
Qed.
Lemma cur_NoDup s opts : NoDup (map fst (cur s opts)).
Proof.
  unfold cur. assert (N : NoDup (map fst (CopyMap opts []))) by (apply CopyMap_NoDup; constructor).
  destruct (lookup (CopyMap opts []) K_OUTTYPE); [exact N|]. apply UpdateMap_NoDup. exact N.
Qed.

Lemma type_plain s : plain_option (RasterDataTypeToString s).
Proof. right. left. destruct s; vm_compute; discriminate. Qed.

Lemma cur_plain s opts : NoDup (map fst opts) -> (forall k v, In (k, v) opts -> plain_option v) -> forall k v, In (k, v) (cur s opts) -> plain_option v.
Proof.
  intros N P k v I. apply (lookup_In _ k v (cur_NoDup s opts)) in I. rewrite (cur_lookup s opts k N) in I.
  destruct (lookup opts k) eqn:E; [injection I as <-; apply (P k), lookup_found; exact E|].
  destruct (beqb K_OUTTYPE k); [injection I as <-; apply type_plain|discriminate].
Qed.
Lemma cur_keys s opts : NoDup (map fst opts) -> (forall k, In k (map fst opts) -> ~ In k header_keys) -> forall k, In k (map fst (cur s opts)) -> ~ In k header_keys.
Proof.
  intros N P k I. destruct (lookup (cur s opts) k) as [v|] eqn:E; [|apply lookup_none in E; contradiction]. rewrite (cur_lookup s opts k N) in E.
  destruct (lookup opts k) eqn:F.
  - apply P. apply lookup_found in F. change k with (fst (k, b)). apply in_map. exact F.
  - destruct (beqb K_OUTTYPE k) eqn:B; [|discriminate]. apply beqb_true in B. subst k. vm_compute. intuition discriminate.
Qed.

(** ** The metadata written *)
Definition meta_of (h : smap f64) (co : smap bytes) : bson :=
  map (fun kv => (fst kv, hval kv)) h ++ map (fun kv => (fst kv, optv (snd kv))) co.

Lemma meta_keys h co : map fst (meta_of h co) = map fst h ++ map fst co.
Proof. unfold meta_of. rewrite map_app, !map_map. reflexivity. Qed.

Lemma meta_NoDup h co : NoDup (map fst h) -> NoDup (map fst co) -> (forall k, In k (map fst h) -> ~ In k (map fst co)) -> NoDup (map fst (meta_of h co)).
Proof.
  intros A B D. rewrite meta_keys. induction h as [|[k x] h IH]; cbn [map fst app]; [exact B|]. cbn [map fst] in A, D. inversion A as [|? ? NI A']; subst. constructor.
  - rewrite in_app_iff. intros [I|I]; [contradiction|]. apply (D k); [left; reflexivity|exact I].
  - apply IH; [exact A'|]. intros k' I. apply D. right. exact I.
Qed.

Lemma meta_lookup h co k : lookup (meta_of h co) k =
  match lookup h k with Some x => Some (hval (k, x)) | None => match lookup co k with Some v => Some (optv v) | None => None end end.
Proof.
  unfold meta_of. rewrite lookup_app, (lookup_map hval), (lookup_map (fun kv => optv (snd kv))). destruct (lookup h k); [reflexivity|]. destruct (lookup co k); reflexivity.
Qed.

(** ** The buffer *)
Lemma rdt_eqb_iff a b : rdt_eqb a b = true <-> a = b.
Proof. split; [destruct a, b; try reflexivity; vm_compute; discriminate|intros ->; destruct b; reflexivity]. Qed.

Lemma converted_length s t vs ws : converted s t vs ws -> length ws = length vs.
Proof. intros [[_ ->]|(_ & _ & _ & _ & F)]; [reflexivity|]. symmetry. induction F; cbn; congruence. Qed.

Lemma cvt_type t v w : cvt t v = Ok w -> t <> RDT_Unknown -> of_type t w.
Proof.
  intros E U. destruct (int_kind t) as [p|] eqn:K.
  - assert (I : integer_type t) by (unfold integer_type; congruence).
    assert (R := around_zero t). assert (least t <= most t) by lia.
    destruct v as [z|x|x].
    + rewrite (cvt_int t z I) in E. injection E as <-. split; [exact I|]. apply wrap_range. lia.
    + rewrite (cvt_floating t (VF x) I Logic.I) in E. unfold cast_int in E. destruct (is_finite (as_double (VF x))); [|discriminate].
      destruct ((least t <=? Btrunc (as_double (VF x))) && (Btrunc (as_double (VF x)) <=? most t)) eqn:B; [|discriminate].
      apply andb_true_iff in B. destruct B as [B1 B2]. apply Z.leb_le in B1, B2. injection E as <-. split; [exact I|]. split; assumption.
    + rewrite (cvt_floating t (VD x) I Logic.I) in E. unfold cast_int in E. destruct (is_finite (as_double (VD x))); [|discriminate].
      destruct ((least t <=? Btrunc (as_double (VD x))) && (Btrunc (as_double (VD x)) <=? most t)) eqn:B; [|discriminate].
      apply andb_true_iff in B. destruct B as [B1 B2]. apply Z.leb_le in B1, B2. injection E as <-. split; [exact I|]. split; assumption.
  - destruct t; try discriminate; try congruence; cbn [cvt] in E; injection E as <-; reflexivity.
Qed.

Lemma converted_type s t vs ws : converted s t vs ws -> Forall (of_type s) vs -> Forall (of_type t) ws.
Proof.
  intros [[-> ->]|(_ & U & _ & _ & F)] V; [exact V|]. clear V. induction F; constructor; [|assumption]. eapply cvt_type; eauto.
Qed.

Lemma convert_each t n vs ws : Forall2 (fun v w => cvt t v = Ok w) vs ws -> Z.of_nat (length vs) = n -> convert_array t n vs = Ok ws.
Proof.
  intros F L. rewrite (convert_all t (fun v => match cvt t v with Ok w => w | _ => v end) n vs).
  - f_equal. clear L. induction F; cbn [map]; [reflexivity|]. rewrite H, IHF. reflexivity.
  - clear L. intros v I. induction F; [destruct I|]. destruct I as [<-|I]; [rewrite H; reflexivity|auto].
  - exact L.
Qed.

Lemma stream_ok s t vs ws : converted s t vs ws ->
  gridfs_stream s t (Some vs) (Z.of_nat (length vs)) = Ok (Some (flat_map (encode t) ws), Z.of_nat (length vs) * size_of t).
Proof.
  intros [[-> ->]|(N & U & U8 & I8 & F)]; unfold gridfs_stream.
  - rewrite (proj2 (rdt_eqb_iff s s) eq_refl). reflexivity.
  - destruct (rdt_eqb t s) eqn:E; [apply rdt_eqb_iff in E; contradiction|].
    replace (convertible t) with true by (destruct t; try reflexivity; congruence).
    rewrite (convert_each t _ vs ws F eq_refl). reflexivity.
Qed.

Lemma write_tries_ok n saved st name b len meta : Z.of_nat (length b) = len -> (exists k, (k < n)%nat /\ saved k = true) ->
  write_tries n saved st name (Some b) len meta = Ok (true, st ++ [mkGfile name meta b]).
Proof.
  intros L. induction n as [|n IH]; intros [k [K S]]; [lia|]. cbn [write_tries].
  assert (W : forall sv, WriteStreamData sv st name (Some b) len meta = if sv then Ok (true, st ++ [mkGfile name meta b]) else Ok (false, st)).
  { intros sv. unfold WriteStreamData. destruct (Z.eqb_spec len 0) as [Z0|Z0].
    - destruct b; [reflexivity|cbn [length] in L; lia].
    - cbn [deref obind]. replace ((len <? 0) || (Z.of_nat (length b) <? len)) with false by lia. cbn [obind]. rewrite firstn_all2 by lia. reflexivity. }
  rewrite W. destruct (saved n) eqn:E; cbn [obind fst snd]; [reflexivity|]. apply IH. exists k. split; [|exact S].
  assert (k <> n) by congruence. lia.
Qed.

Lemma target_cur s opts t : NoDup (map fst opts) -> target s opts t -> s <> RDT_Unknown ->
  exists w, lookup (cur s opts) K_OUTTYPE = Some w /\ StringToRasterDataType w = t.
Proof.
  intros N T U. rewrite (cur_lookup s opts K_OUTTYPE N). destruct T as [[E ->]|(w & E & <-)]; change (str "DATATYPE_OUT") with K_OUTTYPE in E; rewrite E.
  - rewrite MapProofs.beqb_refl. eexists. split; [reflexivity|]. destruct s; first [reflexivity|congruence].
  - eauto.
Qed.

(** The file written. *)
Definition written (s t : rdt) (name : bytes) (h : smap f64) (opts : smap bytes) (ws : list num) : gfile :=
  mkGfile name (meta_of h (cur s opts)) (flat_map (encode t) ws).
Definition curq (s : rdt) (opts : smap bytes) : bson := map (fun kv => (fst kv, optv (snd kv))) (cur s opts).

Lemma write_ok s t saved st name h vs ws opts :
  s <> RDT_Unknown -> storable h opts -> target s opts t -> converted s t vs ws -> saves saved ->
  WriteStreamDataAsGridfs s saved st name h (Some vs) (Z.of_nat (length vs)) opts =
    Ok (true, filter (fun g => negb (matches name (curq s opts) g)) st ++ [written s t name h opts ws]).
Proof.
  intros U (N1 & N2 & K1 & K2 & FM & PO) T C SV. unfold WriteStreamDataAsGridfs. cbv zeta. fold (cur s opts).
  unfold RemoveFile, query. rewrite (options_fields _ (cur_plain s opts N2 PO)). cbn [obind app]. fold (curq s opts).
  rewrite (header_fields_ok h FM). cbn [obind]. destruct (target_cur s opts t N2 T U) as (w & E & EW).
  unfold at_get. rewrite E. cbn [obind]. rewrite EW, (stream_ok s t vs ws C). cbn [obind fst snd].
  rewrite (options_fields _ (cur_plain s opts N2 PO)). cbn [obind]. rewrite <- (converted_length s t vs ws C).
  rewrite write_tries_ok; [reflexivity|apply stream_length|exact SV].
Qed.

(** ** Finding it *)
Lemma query_ok asked : (forall k v, In (k, v) asked -> plain_option v) -> query asked = Ok (map (fun kv => (fst kv, optv (snd kv))) asked).
Proof. intros P. unfold query. rewrite (options_fields asked P). reflexivity. Qed.

Lemma matches_new s t name h opts ws asked :
  NoDup (map fst opts) -> (forall k, In k (map fst h) -> In k header_keys) -> (forall k, In k (map fst (cur s opts)) -> ~ In k header_keys) ->
  (forall k v, In (k, v) (cur s opts) -> plain_option v) ->
  agrees asked (cur s opts) -> matches name (map (fun kv => (fst kv, optv (snd kv))) asked) (written s t name h opts ws) = true.
Proof.
  intros N K1 K2 P [_ A]. unfold matches, written. cbn [gf_name gf_meta]. rewrite MapProofs.beqb_refl. cbn [andb].
  apply forallb_forall. intros [k q] I. apply in_map_iff in I. destruct I as ([k' v] & E & I). injection E as <- <-. cbn [fst snd].
  specialize (A k' v I). rewrite find_lookup, meta_lookup, A.
  destruct (lookup h k') eqn:LH.
  - exfalso. apply lookup_found in A, LH. apply (K2 k'); [change k' with (fst (k', v)); apply in_map; exact A|].
    apply K1. change k' with (fst (k', f)). apply in_map. exact LH.
  - rewrite optv_same, MapProofs.beqb_refl by (apply (P k'), lookup_found; exact A). reflexivity.
Qed.

Lemma find_new (pick : list gfile -> option gfile) (st : list gfile) f (p q : gfile -> bool) : finds pick ->
  p f = true -> (forall g, In g st -> p g = true -> q g = true) ->
  pick (filter p (filter (fun g => negb (q g)) st ++ [f])) = Some f.
Proof.
  intros F PF H. rewrite filter_app. cbn [filter]. rewrite PF.
  replace (filter p (filter (fun g => negb (q g)) st)) with (@nil gfile).
  - cbn [app]. specialize (F [f]). destruct (pick [f]) as [g|]; [destruct F as [->|[]]; reflexivity|discriminate].
  - symmetry. induction st as [|g st IH]; [reflexivity|]. cbn [filter]. destruct (q g) eqn:Q; cbn [negb]; [apply IH; intros x I; apply H; right; exact I|].
    cbn [filter]. destruct (p g) eqn:P; [rewrite (H g (or_introl eq_refl) P) in Q; discriminate|]. apply IH. intros x I. apply H. right. exact I.
Qed.

(** ** Reading it *)
Lemma same_f_int x y : same_number x y -> f_int x = f_int y.
Proof.
  intros [->|(FX & FY & E)]; [reflexivity|]. unfold f_int, cast_int. rewrite FX, FY, !Btrunc_real, E. reflexivity.
Qed.

(** Where the reader finds the sizes and the type. *)
Definition tells (h : smap f64) (rows cols lyrs cells : Z) : Prop :=
  (exists y, lookup h K_NROWS = Some y /\ f_int y = Ok rows) /\ (exists y, lookup h K_NCOLS = Some y /\ f_int y = Ok cols) /\
  (exists y, lookup h K_LAYERS = Some y /\ f_int y = Ok lyrs) /\ (exists y, lookup h K_CELLSNUM = Some y /\ f_int y = Ok cells).

Lemma read_eq pick s st name h hs asked f rows cols lyrs cells :
  GetFile pick st name asked = Ok (Some f) -> tells (fst (read_meta (gf_meta f) h hs)) rows cols lyrs cells ->
  let h1 := fst (read_meta (gf_meta f) h hs) in let hs1 := snd (read_meta (gf_meta f) h hs) in
  ReadGridFsFile pick s st name h hs asked =
    if (rows <? 0) || (cols <? 0) || (lyrs <? 0) then Ok (false, h1, hs1, None)
    else let* count := imul cells lyrs in
      if count =? 0 then UB
      else match RasterDataTypeInOptionals hs1 with
           | RDT_Unknown => Ok (false, h1, hs1, None)
           | t => if Z.quot (Z.of_nat (length (gf_data f))) count =? size_of t then
                    let* vs := cells_at t (gf_data f) count in
                    let* ws := convert_array s count vs in
                    Ok (true, h1, hs1, Some ws)
                  else Ok (false, h1, hs1, None)
           end.
Proof.
  intros G ((a & A & A') & (b & B & B') & (c & C & C') & (d & D & D')). unfold ReadGridFsFile. rewrite G. cbn [obind].
  destruct (read_meta (gf_meta f) h hs) as [h1 hs1]. cbn [fst snd] in *. unfold at_get. rewrite A, B, C, D. cbn [obind]. rewrite A', B', C', D'. cbn [obind].
  destruct ((rows <? 0) || (cols <? 0) || (lyrs <? 0)); [reflexivity|]. destruct (imul cells lyrs) as [z| |]; cbn [obind]; try reflexivity. destruct (z =? 0); [reflexivity|].
  cbv zeta. destruct (RasterDataTypeInOptionals hs1); reflexivity.
Qed.

(** What the reader makes of the metadata written. *)
Lemma read_written s h opts h0 hs0 : storable h opts -> reader_header h0 ->
  let m := read_meta (meta_of h (cur s opts)) h0 hs0 in
  (forall k x, lookup h k = Some x -> exists y, lookup (fst m) k = Some y /\ same_number x y /\ (k = str "NODATA_VALUE" -> y = x)) /\
  (forall k v, lookup (cur s opts) k = Some v -> lookup (snd m) k = Some v).
Proof.
  intros (N1 & N2 & K1 & K2 & FM & PO) RH m. pose proof (cur_keys s opts N2 K2) as CK.
  assert (ND : NoDup (map fst (meta_of h (cur s opts)))).
  { apply meta_NoDup; [exact N1|apply cur_NoDup|]. intros k I J. exact (CK k J (K1 k I)). }
  destruct (read_meta_lookup _ ND h0 hs0) as [A B]. fold m in A, B. split.
  - intros k x E. pose proof (lookup_found _ _ _ E) as I. destruct (header_field_ok k x (FM k x I)) as (w & _ & HV & y & GY & SN & NX).
    exists y. split; [|split; assumption]. rewrite A, meta_lookup, E, HV, GY. destruct (lookup h0 k) as [x0|] eqn:L0; [reflexivity|].
    exfalso. apply lookup_none in L0. apply L0, RH, K1. change k with (fst (k, x)). apply in_map. exact I.
  - intros k v E. pose proof (lookup_found _ _ _ E) as I. assert (NH : ~ In k header_keys) by (apply CK; change k with (fst (k, v)); apply in_map; exact I).
    rewrite B, meta_lookup, E. replace (lookup h0 k) with (@None f64); [|symmetry; apply lookup_none; intros J; apply NH, RH; exact J].
    replace (lookup h k) with (@None f64); [|symmetry; apply lookup_none; intros J; apply NH, K1; exact J].
    f_equal. apply optv_text. exact (cur_plain s opts N2 PO k v I).
Qed.

Lemma tells_of h h' rows cols lyrs cells : sizes h rows cols lyrs cells ->
  (forall k x, lookup h k = Some x -> exists y, lookup h' k = Some y /\ same_number x y /\ (k = str "NODATA_VALUE" -> y = x)) -> tells h' rows cols lyrs cells.
Proof.
  intros (A & B & C & D & IA & IB & IC & ID) H.
  repeat split; [destruct (H _ _ A) as (y & E & S & _)|destruct (H _ _ B) as (y & E & S & _)|destruct (H _ _ C) as (y & E & S & _)|destruct (H _ _ D) as (y & E & S & _)];
    exists y; (split; [exact E|rewrite <- (same_f_int _ _ S); apply f_int_of_int; assumption]).
Qed.

(** There and back, when older files that match are those removed. *)
Lemma trip pick s t u saved st name h opts vs ws xs rows cols lyrs cells asked h0 hs0 :
  finds pick -> s <> RDT_Unknown -> storable h opts -> target s opts t -> Forall (of_type s) vs -> converted s t vs ws -> saves saved ->
  sizes h rows cols lyrs cells -> 0 <= rows -> 0 <= cols -> 0 < lyrs -> 0 < cells -> Z.of_nat (length vs) = cells * lyrs -> in_int (cells * lyrs) ->
  Forall2 (fun w x => cvt u w = Ok x) ws xs -> reader_header h0 -> agrees asked (cur s opts) ->
  (forall g, In g st -> matches name (map (fun kv => (fst kv, optv (snd kv))) asked) g = true -> matches name (curq s opts) g = true) ->
  exists st', WriteStreamDataAsGridfs s saved st name h (Some vs) (Z.of_nat (length vs)) opts = Ok (true, st') /\
    st' = filter (fun g => negb (matches name (curq s opts) g)) st ++ [written s t name h opts ws] /\
    exists h' hs', ReadGridFsFile pick u st' name h0 hs0 asked = Ok (true, h', hs', Some xs) /\
      (forall k x, lookup h k = Some x -> exists y, lookup h' k = Some y /\ same_number x y /\ (k = str "NODATA_VALUE" -> y = x)) /\
      (forall k v, lookup (cur s opts) k = Some v -> lookup hs' k = Some v).
Proof.
  intros FP U ST T FV C SV SZ R0 C0 L0 CE LEN IN FX RH AG OLD.
  eexists. split; [apply (write_ok s t saved st name h vs ws opts U ST T C SV)|]. split; [reflexivity|].
  destruct (read_written s h opts h0 hs0 ST RH) as [RA RB]. pose proof (tells_of _ _ _ _ _ _ SZ RA) as TL.
  destruct ST as (N1 & N2 & K1 & K2 & FM & PO).
  assert (PA : forall k v, In (k, v) asked -> plain_option v).
  { intros k v I. apply (cur_plain s opts N2 PO k). apply lookup_found. apply (proj2 AG). exact I. }
  set (st' := filter _ st ++ [_]).
  assert (G : GetFile pick st' name asked = Ok (Some (written s t name h opts ws))).
  { unfold GetFile. rewrite (query_ok asked PA). cbn [obind]. f_equal. apply find_new; [exact FP| |exact OLD].
    apply matches_new; auto. - exact (cur_keys s opts N2 K2). - exact (cur_plain s opts N2 PO). }
  do 2 eexists. split; [|split; [exact RA|exact RB]].
  rewrite (read_eq pick u st' name h0 hs0 asked _ rows cols lyrs cells G TL).
  replace ((rows <? 0) || (cols <? 0) || (lyrs <? 0)) with false by lia.
  unfold imul. replace (in_intb (cells * lyrs)) with true by (unfold in_intb; clear - IN; unfold in_int in IN; lia). cbn [obind].
  assert (PC : 0 < cells * lyrs) by (apply Z.mul_pos_pos; assumption).
  replace (cells * lyrs =? 0) with false by lia.
  destruct (target_cur s opts t N2 T U) as (w & E & EW).
  assert (TT : RasterDataTypeInOptionals (snd (read_meta (gf_meta (written s t name h opts ws)) h0 hs0)) = t).
  { unfold RasterDataTypeInOptionals. cbn [gf_meta written]. rewrite (RB _ _ E). exact EW. }
  assert (TU : t <> RDT_Unknown) by (destruct C as [[-> _]|(_ & TU & _)]; assumption).
  assert (SL : Z.of_nat (length (gf_data (written s t name h opts ws))) = (cells * lyrs) * size_of t).
  { cbn [gf_data written]. rewrite stream_length, (converted_length _ _ _ _ C), LEN. reflexivity. }
  rewrite SL, TT. assert (ZQ : Z.quot (cells * lyrs * size_of t) (cells * lyrs) = size_of t) by (rewrite Z.mul_comm; apply Z.quot_mul; lia).
  assert (CB : cells_at t (gf_data (written s t name h opts ws)) (cells * lyrs) = Ok ws).
  { cbn [gf_data written]. rewrite <- LEN, <- (converted_length _ _ _ _ C). rewrite <- (app_nil_r (flat_map (encode t) ws)).
    apply cells_back. exact (converted_type s t vs ws C FV). }
  assert (CV : convert_array u (cells * lyrs) ws = Ok xs).
  { apply convert_each; [exact FX|]. rewrite (converted_length _ _ _ _ C). exact LEN. }
  rewrite ZQ. destruct t; try (exfalso; apply TU; reflexivity); rewrite Z.eqb_refl, CB; cbn [obind]; rewrite CV; reflexivity.
Qed.

(** Sufficient conditions on what was there before. *)
Lemma unused_ok st name q q' : unused st name -> forall g, In g st -> matches name q g = true -> matches name q' g = true.
Proof. intros UN g I M. unfold matches in M. apply andb_true_iff in M. destruct M as [M _]. apply beqb_true in M. exfalso. exact (UN g I (eq_sym M)). Qed.

Lemma covers_ok st name asked co : NoDup (map fst co) -> covers asked co ->
  forall g : gfile, In g st -> matches name (map (fun kv => (fst kv, optv (snd kv))) asked) g = true -> matches name (map (fun kv => (fst kv, optv (snd kv))) co) g = true.
Proof.
  intros ND CO g I M. unfold matches in *. apply andb_true_iff in M. destruct M as [M F]. rewrite M. cbn [andb].
  apply forallb_forall. intros [k q] J. apply in_map_iff in J. destruct J as ([k' v] & E & J). injection E as <- <-.
  rewrite forallb_forall in F. apply (F (k', optv v)). apply in_map_iff. exists (k', v). split; [reflexivity|].
  apply lookup_found, CO. apply lookup_In; assumption.
Qed.
