(** Acceptance of stored files; writes that cannot succeed. *)
From Coq Require Import ZArith Reals Ascii String List Bool Lia Lra ZifyBool.
From Flocq Require Import Core BinarySingleNaN.
From Verif Require Import Base ListLib StrModel StrProofs MapModel MapProofs RasterModel BasicModel FloatModel FloatProofs CoordFloatModel TypeModel MongoModel MongoProofs CopyModel NumModel NumProofs AscModel AscProofs CellModel CellSpec CellProofs CellProofs2 GdalModel GdalProofs3 GridfsModel GridfsSpec GridfsProofs GridfsProofs2 GridfsProofs3.
Import ListNotations.
Open Scope Z_scope.
Open Scope outcome_scope.

Lemma decode_type t b : t <> RDT_Unknown -> of_type t (decode t b).
Proof.
  intros U. destruct (int_kind t) as [p|] eqn:K.
  - assert (I : integer_type t) by (unfold integer_type; congruence).
    assert (D : decode t b = VI (wrap (least t) (most t) (le_value b))) by (unfold decode; rewrite (int_range_kind t I); destruct t; try reflexivity; discriminate).
    rewrite D. split; [exact I|]. apply wrap_range. pose proof (around_zero t). lia.
  - destruct t; try discriminate; try congruence; reflexivity.
Qed.

Lemma cells_at_ok t b n : t <> RDT_Unknown -> n * size_of t <= Z.of_nat (length b) -> 0 <= n ->
  exists vs, cells_at t b n = Ok vs /\ Z.of_nat (length vs) = n /\ Forall (of_type t) vs.
Proof.
  intros U L N. pose proof (size_pos t U) as S. unfold cells_at. revert L. pattern n. apply natlike_ind; [|intros k K IH L|exact N].
  - intros _. exists []. repeat split. constructor.
  - destruct IH as (vs & E & LV & F); [nia|]. unfold Z.succ. rewrite zseq_S by lia. rewrite ofold_app, E. cbn [obind ofold].
    assert (C : cell_at t b k = Ok (decode t (firstn (Z.to_nat (size_of t)) (skipn (Z.to_nat (k * size_of t)) b)))).
    { unfold cell_at. replace ((0 <=? k) && ((k + 1) * size_of t <=? Z.of_nat (length b))) with true by (unfold Z.succ in L; lia). reflexivity. }
    rewrite C. cbn [obind]. eexists. split; [reflexivity|]. split; [rewrite app_length; cbn [length]; lia|].
    apply Forall_app. split; [exact F|]. constructor; [apply decode_type; exact U|constructor].
Qed.

Lemma sole_found pick st name f : finds pick -> sole st name f -> GetFile pick st name [] = Ok (Some f).
Proof.
  intros FP (I & N & S). unfold GetFile, query. cbn [AppendStringOptionsToBson]. change (AppendStringOptionsToBson strtod [] [] []) with (@Ok bson []). cbn [obind].
  f_equal. specialize (FP (filter (matches name []) st)). assert (IF : In f (filter (matches name []) st)).
  { apply filter_In. split; [exact I|]. unfold matches. rewrite N, MapProofs.beqb_refl. reflexivity. }
  destruct (pick (filter (matches name []) st)) as [g|].
  - f_equal. apply filter_In in FP. destruct FP as [J M]. apply S; [exact J|]. unfold matches in M. apply andb_true_iff in M. destruct M as [M _]. apply beqb_true in M. congruence.
  - rewrite FP in IF. destruct IF.
Qed.

Lemma describes_read f rows cols lyrs cells t h0 hs0 : describes f rows cols lyrs cells t -> reader_header h0 ->
  tells (fst (read_meta (gf_meta f) h0 hs0)) rows cols lyrs cells /\ RasterDataTypeInOptionals (snd (read_meta (gf_meta f) h0 hs0)) = t.
Proof.
  intros (ND & A & B & C & D & IA & IB & IC & ID & w & W & T) RH. destruct (read_meta_lookup _ ND h0 hs0) as [HA HB].
  assert (Q : forall k z, In (k, BInt32 z) (gf_meta f) -> In k header_keys -> in_int z -> exists y, lookup (fst (read_meta (gf_meta f) h0 hs0)) k = Some y /\ f_int y = Ok z).
  { intros k z I J IZ. rewrite HA. apply RH in J. destruct (lookup h0 k) as [x|] eqn:E; [|apply lookup_none in E; contradiction].
    apply (lookup_In _ _ _ ND) in I. rewrite I. cbn [GetNumeric_dbl]. eexists. split; [reflexivity|]. apply f_int_of_int. exact IZ. }
  split.
  - repeat split; apply Q; try assumption; vm_compute; tauto.
  - unfold RasterDataTypeInOptionals. rewrite HB. destruct (lookup h0 K_OUTTYPE) as [x|] eqn:E.
    + exfalso. apply lookup_found in E. apply (in_map fst) in E. apply RH in E. vm_compute in E. intuition discriminate.
    + apply (lookup_In _ _ _ ND) in W. change (str "DATATYPE_OUT") with K_OUTTYPE in W. rewrite W. cbn [GetStringFromBsonIterator]. exact T.
Qed.

Lemma quot_iff len c s : 0 <= len -> 0 < c -> 0 <= s -> (Z.quot len c = s <-> s * c <= len < (s + 1) * c).
Proof.
  intros L C S. rewrite Z.quot_div_nonneg by lia. pose proof (Z.div_mod len c) as D. pose proof (Z.mod_pos_bound len c C) as M.
  split; [intros E; rewrite E in D; nia|]. intros H. symmetry. apply Z.div_unique_pos with (len - s * c); nia.
Qed.

Lemma accept pick st name f rows cols lyrs cells t h0 hs0 :
  finds pick -> sole st name f -> describes f rows cols lyrs cells t -> t <> RDT_Unknown -> reader_header h0 ->
  0 <= rows -> 0 <= cols -> 0 < lyrs -> 0 < cells -> in_int (cells * lyrs) ->
  exists ok h' hs' d, ReadGridFsFile pick t st name h0 hs0 [] = Ok (ok, h', hs', d) /\
    (ok = true <-> size_of t * (cells * lyrs) <= Z.of_nat (length (gf_data f)) < (size_of t + 1) * (cells * lyrs)) /\
    (ok = true -> exists vs, d = Some vs /\ Z.of_nat (length vs) = cells * lyrs).
Proof.
  intros FP SO DE U RH R0 C0 L0 CE IN. destruct (describes_read f rows cols lyrs cells t h0 hs0 DE RH) as [TL TT].
  rewrite (read_eq pick t st name h0 hs0 [] f rows cols lyrs cells (sole_found pick st name f FP SO) TL), TT.
  replace ((rows <? 0) || (cols <? 0) || (lyrs <? 0)) with false by lia.
  unfold imul. replace (in_intb (cells * lyrs)) with true by (unfold in_intb; clear - IN; unfold in_int in IN; lia). cbn [obind].
  assert (PC : 0 < cells * lyrs) by (apply Z.mul_pos_pos; assumption). replace (cells * lyrs =? 0) with false by lia.
  pose proof (size_pos t U) as SP. pose proof (quot_iff (Z.of_nat (length (gf_data f))) (cells * lyrs) (size_of t) ltac:(lia) PC ltac:(lia)) as QI.
  destruct (Z.eq_dec (Z.quot (Z.of_nat (length (gf_data f))) (cells * lyrs)) (size_of t)) as [E|E].
  - pose proof (proj1 QI E) as B. destruct (cells_at_ok t (gf_data f) (cells * lyrs) U) as (vs & EV & LV & F); [lia|lia|].
    pose proof (convert_own t (cells * lyrs) vs F LV) as CV. do 4 eexists. split; [destruct t; try congruence; rewrite E, Z.eqb_refl, EV; cbn [obind]; rewrite CV; reflexivity|].
    split; [tauto|]. intros _. eauto.
  - do 4 eexists. split; [apply Z.eqb_neq in E; destruct t; try congruence; rewrite E; reflexivity|]. split; [|discriminate]. split; [discriminate|]. intros B. apply QI in B. contradiction.
Qed.

Lemma zero_count pick s st name f rows cols lyrs cells t h0 hs0 :
  finds pick -> sole st name f -> describes f rows cols lyrs cells t -> reader_header h0 ->
  0 <= rows -> 0 <= cols -> 0 <= lyrs -> cells * lyrs = 0 -> ReadGridFsFile pick s st name h0 hs0 [] = UB.
Proof.
  intros FP SO DE RH R0 C0 L0 CZ. destruct (describes_read f rows cols lyrs cells t h0 hs0 DE RH) as [TL TT].
  rewrite (read_eq pick s st name h0 hs0 [] f rows cols lyrs cells (sole_found pick st name f FP SO) TL).
  replace ((rows <? 0) || (cols <? 0) || (lyrs <? 0)) with false by lia. unfold imul. rewrite CZ. reflexivity.
Qed.

(** ** Writes that cannot succeed *)
Lemma null_tries n saved st name len meta : (0 < n)%nat -> len <> 0 -> write_tries n saved st name None len meta = UB.
Proof.
  intros N L. destruct n; [lia|]. cbn [write_tries]. unfold WriteStreamData. replace (len =? 0) with false by lia. reflexivity.
Qed.

Lemma no_type s saved st name h values n opts w : storable h opts -> lookup opts K_OUTTYPE = Some w -> no_store s w ->
  WriteStreamDataAsGridfs s saved st name h values n opts = UB.
Proof.
  intros (N1 & N2 & K1 & K2 & FM & PO) E [NS T]. cbv zeta in NS, T. unfold WriteStreamDataAsGridfs. cbv zeta. fold (cur s opts).
  unfold RemoveFile, query. rewrite (options_fields _ (cur_plain s opts N2 PO)). cbn [obind app]. rewrite (header_fields_ok h FM). cbn [obind].
  unfold at_get. rewrite (cur_lookup s opts K_OUTTYPE N2), E. cbn [obind]. unfold gridfs_stream.
  destruct (rdt_eqb (StringToRasterDataType w) s) eqn:B; [apply rdt_eqb_iff in B; contradiction|].
  replace (convertible (StringToRasterDataType w)) with false by (destruct T as [->|[->| ->]]; reflexivity).
  cbn [obind fst snd]. rewrite (options_fields _ (cur_plain s opts N2 PO)). cbn [obind]. apply null_tries; lia.
Qed.

Lemma wide_field k x : k <> K_NODATA -> In k header_keys -> whole x -> ~ (IZR INT_MIN <= B2R x <= IZR INT_MAX)%R -> header_field (k, x) = UB.
Proof.
  intros N K [FX [z Z]] B. unfold header_field. cbn [fst snd].
  assert (SM : StringMatch K_NODATA k = false).
  { vm_compute in K. repeat (destruct K as [<-|K]; [first [reflexivity|exfalso; apply N; reflexivity]|]). destruct K. }
  rewrite SM. cbn [negb andb]. assert (W : is_whole x = true) by (apply is_whole_iff; [exact FX|eauto]). rewrite W.
  unfold f_int, cast_int. rewrite FX, Btrunc_real, Z, Ztrunc_IZR. destruct ((INT_MIN <=? z) && (z <=? INT_MAX)) eqn:C; [|reflexivity].
  exfalso. apply B. rewrite Z. apply andb_true_iff in C. destruct C as [C1 C2]. apply Z.leb_le in C1, C2. split; apply IZR_le; assumption.
Qed.

(** Whole numbers are dealt with one after the other; no entry throws. *)
Lemma header_fields_UB h k x : In (k, x) h -> (forall k', In k' (map fst h) -> In k' header_keys) -> k <> K_NODATA -> whole x ->
  ~ (IZR INT_MIN <= B2R x <= IZR INT_MAX)%R -> header_fields h = UB.
Proof.
  intros I K N W B. pose proof (wide_field k x N (K k (in_map fst _ _ I)) W B) as F. unfold header_fields. generalize (@nil (bytes * bson_value)) at 2.
  clear K N W B. induction h as [|kv h IH]; [destruct I|]. intros acc. cbn [ofold]. destruct I as [->|I]; [rewrite F; reflexivity|].
  assert (G : header_field kv = UB \/ exists f, header_field kv = Ok f).
  { unfold header_field. destruct (negb _ && _); [|eauto]. unfold f_int, cast_int. destruct (is_finite _); [|left; reflexivity]. destruct (_ && _); [right; eexists; reflexivity|left; reflexivity]. }
  destruct G as [->|[f ->]]; [reflexivity|]. cbn [obind]. apply IH. exact I.
Qed.

Lemma wide_header s saved st name h values n opts k x :
  (forall k', In k' (map fst h) -> In k' header_keys) -> NoDup (map fst opts) -> (forall k v, In (k, v) opts -> plain_option v) ->
  In (k, x) h -> k <> K_NODATA -> whole x -> ~ (IZR INT_MIN <= B2R x <= IZR INT_MAX)%R ->
  WriteStreamDataAsGridfs s saved st name h values n opts = UB.
Proof.
  intros K N2 PO I N W B. unfold WriteStreamDataAsGridfs. cbv zeta. fold (cur s opts).
  unfold RemoveFile, query. rewrite (options_fields _ (cur_plain s opts N2 PO)). cbn [obind app]. rewrite (header_fields_UB h k x I K N W B). reflexivity.
Qed.

(** ** Options in the metadata *)
Lemma optv_int z : in_int z -> optv (itoa z) = BInt32 z.
Proof.
  intros Hz. unfold optv, append_option. cbn [fst snd app]. unfold IsDouble. rewrite (strtod_int z Hz), Nat.eqb_refl. cbn [negb]. rewrite orb_false_r.
  destruct (StringMatch [] (itoa z)) eqn:E.
  - exfalso. apply match_empty in E. destruct (itoa_canonical z) as [(d & E2 & _ & N & _)|(d & E2 & _)]; congruence.
  - rewrite (is_whole_of_int z Hz), (f_int_of_int z Hz). reflexivity.
Qed.
Lemma optv_stored v : plain_option v -> stored_option v (optv v).
Proof.
  intros P. destruct (optv_cases v P) as [E|(z & I & E & F)]; [|right; eauto].
  left. split; [|exact E]. intros z I ->. rewrite (optv_int z I) in E. discriminate.
Qed.
Lemma stored_optv v w : plain_option v -> stored_option v w -> w = optv v.
Proof.
  intros P [[N ->]|(z & I & -> & ->)].
  - destruct (optv_cases v P) as [E|(z & I & E & F)]; [congruence|]. exfalso. exact (N z I E).
  - symmetry. apply optv_int. exact I.
Qed.

(** The first file of a name. *)
Lemma first_sole st name f : sole st name f -> hd_error (filter (matches name []) st) = Some f.
Proof.
  intros (I & N & S). assert (J : In f (filter (matches name []) st)) by (apply filter_In; split; [exact I|]; unfold matches; rewrite N, MapProofs.beqb_refl; reflexivity).
  destruct (filter (matches name []) st) as [|g l] eqn:E; [destruct J|]. cbn [hd_error]. f_equal.
  assert (K : In g (filter (matches name []) st)) by (rewrite E; left; reflexivity). apply filter_In in K. destruct K as [K M]. apply S; [exact K|].
  unfold matches in M. apply andb_true_iff in M. destruct M as [M _]. apply beqb_true in M. congruence.
Qed.
Lemma first_app A (l l' : list A) x : hd_error l = Some x -> hd_error (l ++ l') = Some x.
Proof. destruct l; [discriminate|auto]. Qed.
