(** Files by their names: writing a raster and reading the files written. *)
From Coq Require Import ZArith QArith Reals Lia Lra Ascii String List Bool.
From Flocq Require Import Core BinarySingleNaN.
From Verif Require Import Base ListLib StrModel StrSpec StrProofs MapModel MapProofs BasicModel FloatModel FloatProofs TypeModel CoordFloatModel CoordFloatSpec CoordFloatProofs
  NumModel FsModel FsSpec FsProofs RasterModel RasterSpec RasterProofs RasterProofs2 RasterProofs3 CopyModel AscModel AscSpec MongoModel CellModel CellSpec GridfsModel SubGridProofs2 GdalModel GdalSpec GdalProofs GdalProofs2 GdalProofs3 GdalProps GdalProps2
  LayersModel LayersSpec LayersProofs LayersProofs2 LayersProofs3 LayersProofs4 LayersProps DiskModel DiskSpec DiskProofs DiskProofs2.
Import List ListNotations.
Open Scope Z_scope.
Open Scope outcome_scope.

Lemma pick {A B} (R : nat -> A -> B -> Prop) : forall (l : list A) m, (forall k x, nth_error l k = Some x -> exists y, R (m + k)%nat x y) ->
  exists ys, List.length ys = List.length l /\ forall k x, nth_error l k = Some x -> exists y, nth_error ys k = Some y /\ R (m + k)%nat x y.
Proof.
  induction l as [|a l IH]; intros m H; [exists []; split; [reflexivity|intros [|k] x E; discriminate]|].
  destruct (H 0%nat a eq_refl) as (y & RY). destruct (IH (S m)) as (ys & L & Q).
  { intros k x E. destruct (H (S k) x E) as (z & Z). exists z. replace (S m + k)%nat with (m + S k)%nat by lia. exact Z. }
  exists (y :: ys). split; [cbn [List.length]; lia|]. intros [|k] x E; cbn [nth_error] in *; [injection E as <-; eauto|].
  destruct (Q k x E) as (z & Z1 & Z2). exists z. split; [exact Z1|]. replace (m + S k)%nat with (S m + k)%nat by lia. exact Z2.
Qed.

Lemma values_file (r : raster num) k vs (g : fgeo) ndd i j v : fg_rows g = r_rows r -> fg_cols g = r_cols r -> inside r i j -> layer_values r k vs ->
  GetValue r i j k = Ok v -> file_value (mkFlayer g ndd vs) i j v.
Proof.
  intros ER EC IN (_ & V) GV. destruct (V i j IN) as (w & W1 & W2). assert (w = v) by congruence. subst w. destruct IN as [I J].
  unfold file_value. cbn [fl_geo fl_vals]. rewrite ER, EC. auto.
Qed.

(** Every layer of [r] readable from its file. *)
Lemma back (o : os) exist read s (r : raster num) (names : list bytes) (g : fgeo) ndd nd calc dflt nv order1 orders :
  1 <= r_nlyrs r -> Z.of_nat (List.length names) = r_nlyrs r -> FilesExist exist names = true -> fg_rows g = r_rows r -> fg_cols g = r_cols r ->
  cvt s (VD ndd) = Ok nd ->
  (forall k nm, nth_error names k = Some nm -> exists vs, layer_values r (Z.of_nat k + 1) vs /\ proper (mkFlayer g ndd vs) /\ forall hdr, gives (read nm hdr) (mkFlayer g ndd vs)) ->
  (forall vs, layer_values r 1 vs -> any_order (mkFlayer g ndd vs) nd calc order1 orders) ->
  exists h r' core path, ReadFromFiles o exist read s order1 orders names calc dflt nv = Ok (true, Some (mkLayered h r' core path)) /\
    comes_back r r' nd ndd /\ header_of h g ndd.
Proof.
  intros NL LN EX ER EC CV EACH OR. destruct names as [|file others]; [cbn in LN; lia|].
  destruct (EACH 0%nat file eq_refl) as (vs0 & V0 & P0 & G0). change (Z.of_nat 0 + 1) with 1 in V0.
  destruct (pick (fun k nm l => exists vs, l = mkFlayer g ndd vs /\ layer_values r (Z.of_nat k + 1) vs /\ proper l /\ forall hdr, gives (read nm hdr) l) others 1) as (ls & LL & LS).
  { intros k nm E. destruct (EACH (S k) nm E) as (vs & V & P & G). exists (mkFlayer g ndd vs), vs. change (1 + k)%nat with (S k). auto. }
  assert (GS : Forall2 (fun f l => gives (read f []) l) others ls).
  { assert (LS' : forall k x, nth_error others k = Some x -> exists y, nth_error ls k = Some y /\ gives (read x []) y).
    { intros k x E. destruct (LS k x E) as (y & Y & vs & _ & _ & _ & G). eauto. }
    revert LL LS'. clear. revert ls. induction others as [|f others IH]; intros [|l ls] LL LS; cbn in LL; try lia; constructor.
    - destruct (LS 0%nat f eq_refl) as (y & [= <-] & G). exact G.
    - apply IH; [lia|]. intros k x E. exact (LS (S k) x E). }
  assert (SG : forall l, In l ls -> proper l /\ fl_geo l = fl_geo (mkFlayer g ndd vs0)).
  { intros l IL. destruct (In_nth_error _ _ IL) as [k E]. assert (K : (k < List.length others)%nat) by (rewrite <- LL; apply nth_error_Some; congruence).
    destruct (nth_error others k) as [x|] eqn:EX'; [|apply nth_error_None in EX'; lia]. destruct (LS k x EX') as (y & Y & vs & -> & _ & P & _). assert (l = mkFlayer g ndd vs) by congruence. subst l. auto. }
  destruct (read_all o exist read s file others (mkFlayer g ndd vs0) ls nd calc dflt nv order1 orders EX (G0 _) P0 CV GS SG (OR _ V0))
    as (h & r' & core & path & E & R & C & L & N & HO & VAL).
  exists h, r', core, path. split; [exact E|]. split; [|exact HO]. cbn [fl_geo] in R, C. split; [congruence|]. split; [congruence|]. split; [congruence|]. split; [exact N|].
  intros i j v IN GV. pose proof (values_file r 1 vs0 g ndd i j v ER EC IN V0 GV) as FV. destruct (VAL i j v FV) as [A B]. split.
  - intros CE. destruct (A CE) as [G1 GN]. split; [exact G1|]. intros lyr w LY GW. set (n := Z.to_nat (lyr - 2)).
    assert (K : (n < List.length others)%nat) by (cbn [List.length] in LN; lia). destruct (nth_error others n) as [x|] eqn:EX'; [|apply nth_error_None in EX'; lia].
    destruct (LS n x EX') as (l & EL & vs & -> & V & _). replace (Z.of_nat (1 + n) + 1) with lyr in V by lia.
    pose proof (GN n _ w EL (values_file r lyr vs g ndd i j w ER EC IN V GW)) as G2. replace (Z.of_nat n + 2) with lyr in G2 by lia. exact G2.
  - intros CE. destruct (B CE) as [G1 GN]. split; [exact G1|]. intros lyr LY. apply GN. rewrite LN. exact LY.
Qed.

(** ** Names *)
Lemma lookup_nth {V} (d : smap V) : NoDup (map fst d) -> forall n k v rest, nth_error d n = Some (k, v) -> lookup (d ++ rest) k = Some v.
Proof.
  induction d as [|[k' v'] d IH]; intros ND [|n] k v rest E; cbn [nth_error map fst app lookup] in *; try discriminate.
  - injection E as <- <-. rewrite beqb_refl. reflexivity.
  - inversion ND as [|? ? NI ND']; subst. destruct (beqb k' k) eqn:B; [|exact (IH ND' n k v rest E)]. apply beqb_true in B. subst k'.
    exfalso. apply NI. change k with (fst (k, v)). apply in_map. exact (nth_error_In _ _ E).
Qed.

Lemma names_nodup {T} (r : raster T) d core suf n : in_int n -> in_int (r_nlyrs r - 1 + n) -> NoDup (names_of r d core suf n).
Proof.
  intros I0 I1. unfold names_of. destruct (r_is2d r); [|constructor; [intros []|constructor]].
  assert (Q : forall l, NoDup l -> (forall k, In k l -> in_int (k + n)) -> NoDup (map (fun k => layer_file d core suf (k + n)) l)).
  { induction l as [|a l IH]; intros ND B; cbn [map]; constructor.
    - intros I. apply in_map_iff in I. destruct I as (k & E & IK). inversion ND as [|? ? NI _]; subst. apply NI. unfold layer_file, file_name in E.
      apply app_inv_head in E. injection E as E. rewrite <- !app_assoc in E. apply app_inv_head in E. cbn [app] in E. injection E as E. apply app_inv_tail in E.
      apply itoa_inj in E; [|apply B; right; exact IK|apply B; left; reflexivity]. replace a with k by lia. exact IK.
    - inversion ND; subst. apply IH; [assumption|]. intros k K. apply B. right. exact K. }
  apply Q; [apply RasterProofs3.NoDup_zseq|]. intros k K. apply zseq_mem in K. unfold in_int in *. lia.
Qed.

Lemma names_suffix {T} (r : raster T) a d core suf n nm : path_parts a d core suf -> suf <> [] -> In nm (names_of r d core suf n) ->
  forall o, resolves o nm nm -> GetSuffix o nm = suf.
Proof.
  intros (EA & C & S & D) NE I o R. assert (P : exists core', path_parts nm d core' suf).
  { unfold names_of in I. destruct (r_is2d r).
    - apply in_map_iff in I. destruct I as (k & <- & _). exists (core ++ "_"%char :: itoa (k + n)). split; [reflexivity|]. split; [|auto]. intros X. apply in_app_iff in X. destruct X as [X|[X|X]]; [exact (C X)|discriminate|exact (itoa_no_slash _ X)].
    - destruct I as [<-|[]]. exists core. split; [reflexivity|auto]. }
  destruct P as (core' & P). exact (GetSuffix_parts o nm nm d core' suf R P NE).
Qed.

Lemma holds_valid (r : raster num) : holds_data r -> ValidateRasterData r = true.
Proof.
  assert (Q : forall n, storage r n -> 0 < n -> 0 < r_ncells r -> ValidateRasterData r = true).
  { intros n ST _ _. unfold ValidateRasterData, storage in *. destruct (r_is2d r); [destruct ST as (dd & -> & _)|destruct ST as (_ & dd & -> & _)]; reflexivity. }
  intros [F|[ix F]].
  - destruct F as (R & C & _ & N & ST & _). apply (Q _ ST); nia.
  - destruct F as (R & C & _ & N0 & N & ST & _). apply (Q _ ST); nia.
Qed.

Lemma disk_exists (files rest : disk) : files <> [] -> NoDup (map fst files) -> FilesExist (on_disk (files ++ rest)) (map fst files) = true.
Proof.
  intros NE ND. unfold FilesExist. assert (H : forallb (on_disk (files ++ rest)) (map fst files) = true); [|destruct files; [congruence|exact H]]. apply forallb_forall. intros nm I. apply in_map_iff in I. destruct I as ([k c] & <- & I). destruct (In_nth_error _ _ I) as [n E].
  unfold on_disk. cbn [fst]. rewrite (lookup_nth files ND n k c rest E). reflexivity.
Qed.

(** ** GeoTIFF files *)
Section Tif.
Variables (g35 g37 asserts : bool) (s : rdt) (ord1 ord2 : list nat) (ord : bytes -> list nat) (opened made moved : bytes -> bool) (o : os)
  (h : smap f64) (opts : smap bytes) (r : raster num) (x y cs ndd : f64) (nd : num) (f a d core suf : bytes).
Hypotheses (NA : named o f a d core suf) (DF : dir_form o d) (TS : tif_suffix suf) (MA : forall nm, made nm = true) (MO : forall nm, moved nm = true)
  (HD : holds_data r) (G : grid_size (r_rows r) (r_cols r)) (IL : in_int (r_nlyrs r)) (HS : header_shows h (r_cols r) (r_rows r) x y cs ndd) (TD : tidy_grid x y cs)
  (AO : asks_nothing opts \/ asks opts s) (AV : available g35 s) (N8 : s <> RDT_Int8) (CT : cells_of_type s r) (CV : cvt s (VD ndd) = Ok nd).

Lemma tif_written : exists files : list (bytes * tif),
  OutputToFile true g35 g37 asserts s ord1 ord2 ord opened made moved o h opts r f = Ok (r, true, map (fun nf => (fst nf, CTif (snd nf))) files) /\
  map fst files = names_of r d core suf 1 /\
  forall k nm t, nth_error files k = Some (nm, t) -> exists vs od, layer_values r (Z.of_nat k + 1) vs /\
    WriteSingleGeotiff g35 g37 s od true true h opts (Some vs) = Ok (Some t).
Proof.
  destruct (name_facts _ _ _ _ _ _ NA) as (AF & AA & _ & _ & PA & _ & AP). pose proof (named_parts o _ _ _ _ _ NA) as EA. pose proof (named_self o _ _ _ _ _ NA) as NS.
  pose proof G as (_ & GC & _). assert (NL : 1 <= r_nlyrs r) by (apply nlyrs_pos; exact HD).
  assert (NSUF : ~ asc_suffix suf) by (intros X; exact (not_both _ X TS)).
  assert (WS : written_suffix true suf suf) by (right; left; auto).
  assert (SE : settled o (file_name d core suf)) by (rewrite <- EA; destruct NA as (_ & RA & ND & _); split; assumption).
  destruct (output_cases true g35 g37 asserts s ord1 ord2 ord opened made moved o h opts r f a d core suf suf NA WS SE) as (_ & [(X & _)|(_ & OE)]); [exfalso; exact (NSUF X)|].
  rewrite holds_valid in OE by exact HD. rewrite OE. rewrite <- EA. clear OE. unfold out_tif.
  assert (WR : forall od k vs, layer_ok r k -> layer_values r k vs -> exists t, WriteSingleGeotiff g35 g37 s od true true h opts (Some vs) = Ok (Some t)).
  { intros od k vs LO V. destruct (C46_same g35 g37 s od h opts _ _ x y cs ndd vs HS G AO AV N8 (values_of_type s r k vs GC CT LO V) (proj1 V)) as (t & W & _). eauto. }
  destruct (r_is2d r) eqn:D.
  - destruct (GdalProofs2.output_layers o g35 g37 s ord made moved h opts r a x y cs ndd HD G HS D) as (files & E & L & EACH).
    { rewrite AA, PA. destruct d; discriminate. }
    { intros k vs LO V. rewrite MA, MO. exact (WR _ k vs LO V). }
    rewrite E. cbn [obind fst snd]. exists files. split; [reflexivity|].
    assert (Q : forall k nm t, nth_error files k = Some (nm, t) -> nm = layer_file d core suf (Z.of_nat k + 1) /\
      exists vs od, layer_values r (Z.of_nat k + 1) vs /\ WriteSingleGeotiff g35 g37 s od true true h opts (Some vs) = Ok (Some t)).
    { intros k nm t EN. assert (K : (k < List.length files)%nat) by (apply nth_error_Some; congruence). destruct (EACH (Z.of_nat k + 1)) as (vs & t' & V & EN' & W); [unfold layer_ok; lia|].
      replace (Z.to_nat (Z.of_nat k + 1 - 1)) with k in EN' by lia. rewrite EN in EN'. injection EN' as -> <-. rewrite MA, MO in W. split; [|eauto]. unfold GdalProofs2.layer_name. rewrite AA. apply AP, DF. }
    split; [|intros k nm t EN; apply (Q k nm t EN)].
    unfold names_of. rewrite D. apply (nth_ext _ _ [] []); [rewrite !map_length, zseq_length; lia|]. intros k K. rewrite map_length in K.
    destruct (nth_error files k) as [[nm t]|] eqn:EN; [|apply nth_error_None in EN; lia].
    rewrite (nth_error_nth _ _ _ (map_nth_error fst _ _ EN)). cbn [fst]. rewrite (proj1 (Q k nm t EN)). symmetry. apply nth_error_nth.
    rewrite nth_error_map. replace k with (Z.to_nat (Z.of_nat k)) at 1 by lia. rewrite zseq_nth by lia. reflexivity.
  - destruct (GdalProofs2.output_one o g35 g37 s ord made moved h opts r a x y cs ndd HD G HS D) as (vs & V & E). rewrite AA in E. rewrite E, MA, MO.
    assert (LO : layer_ok r 1) by (unfold layer_ok; lia). destruct (WR (ord a) 1 vs LO V) as (t & W). rewrite W. cbn [obind fst snd].
    exists [(a, t)]. split; [reflexivity|]. split; [unfold names_of; rewrite D, EA; reflexivity|].
    intros [|k] nm t' EN; [|destruct k; discriminate]. injection EN as <- <-. exists vs, (ord a). auto.
Qed.

Lemma tif_back : exists files, OutputToFile true g35 g37 asserts s ord1 ord2 ord opened made moved o h opts r f = Ok (r, true, files) /\ map fst files = names_of r d core suf 1 /\
  forall o' rest minmax calc dflt nv order1 orders, (forall nm, In nm (names_of r d core suf 1) -> resolves o' nm nm) ->
    (forall nm t, In (nm, CTif t) files -> f_type t = GDT_Byte -> minmax_ok t (minmax t)) -> orders_for r nd calc order1 orders ->
    exists h' r' core' path', ReadFromFiles o' (on_disk (files ++ rest)) (read_named true g35 g37 s o' (files ++ rest) minmax) s order1 orders (names_of r d core suf 1) calc dflt nv =
      Ok (true, Some (mkLayered h' r' core' path')) /\ comes_back r r' nd ndd /\ grid_back h' (r_rows r) (r_cols r) x y cs ndd.
Proof.
  destruct tif_written as (fs & OE & NM & EACH). set (files := map (fun nf => (fst nf, CTif (snd nf))) fs) in *.
  assert (NM' : map fst files = names_of r d core suf 1) by (rewrite <- NM; unfold files; rewrite map_map; reflexivity).
  assert (NL : 1 <= r_nlyrs r) by (apply nlyrs_pos; exact HD). pose proof G as (_ & GC & _).
  exists files. split; [exact OE|]. split; [exact NM'|]. intros o' rest minmax calc dflt nv order1 orders RS MM OR.
  assert (ND : NoDup (map fst files)) by (rewrite NM'; apply names_nodup; unfold in_int, INT_MIN, INT_MAX in *; lia).
  assert (LN : Z.of_nat (List.length (names_of r d core suf 1)) = r_nlyrs r).
  { unfold names_of. destruct (r_is2d r) eqn:D; [rewrite map_length, zseq_length; lia|]. destruct HD as [F|[ix F]].
    - destruct F as (_ & _ & _ & _ & ST & _). unfold storage in ST. rewrite D in ST. symmetry. exact (proj1 ST).
    - destruct F as (_ & _ & _ & _ & _ & ST & _). unfold storage in ST. rewrite D in ST. symmetry. exact (proj1 ST). }
  set (g := back_geo (r_rows r) (r_cols r) x y cs).
  assert (GIV : forall k nm, nth_error (names_of r d core suf 1) k = Some nm -> exists vs, layer_values r (Z.of_nat k + 1) vs /\
    (proper (mkFlayer g ndd vs) /\ forall hdr, gives (read_named true g35 g37 s o' (files ++ rest) minmax nm hdr) (mkFlayer g ndd vs)) /\
    is_finite (fg_xll g) = true /\ is_finite (fg_yll g) = true /\ (Rabs (B2R (fg_xll g) - B2R x) <= bpow radix2 (-10) * B2R cs)%R /\ (Rabs (B2R (fg_yll g) - B2R y) <= bpow radix2 (-10) * B2R cs)%R).
  { intros k nm EN. pose proof (nth_error_In _ _ EN) as INM. rewrite <- NM in EN. rewrite nth_error_map in EN. destruct (nth_error fs k) as [[nm0 t]|] eqn:EF; [|discriminate]. cbn [option_map fst] in EN. injection EN as ->.
    destruct (EACH k nm t EF) as (vs & od & V & W). exists vs. split; [exact V|].
    assert (LO : layer_ok r (Z.of_nat k + 1)).
    { assert (K : (k < List.length fs)%nat) by (apply nth_error_Some; congruence). assert (List.length fs = List.length (names_of r d core suf 1)) by (rewrite <- NM, map_length; reflexivity). unfold layer_ok. lia. }
    assert (EL : nth_error files k = Some (nm, CTif t)) by (unfold files; rewrite nth_error_map, EF; reflexivity).
    assert (RN : forall hdr, read_named true g35 g37 s o' (files ++ rest) minmax nm hdr = read_tif g35 g37 s t (minmax t) hdr).
    { intros hdr. unfold read_named. pose proof (filetype_match o' nm ASCIIExtension) as FM. destruct NA as (_ & _ & _ & PP & SN).
      rewrite (names_suffix r a d core suf 1 nm PP SN INM o' (RS nm INM)) in FM.
      destruct (StringMatch (filetype o' nm) ASCIIExtension); [exfalso; exact (not_both _ (proj1 FM eq_refl) TS)|]. cbn [negb]. rewrite (lookup_nth files ND k nm (CTif t) rest EL). reflexivity. }
    pose proof (fun hdr => tif_gives g35 g37 s od h opts (r_cols r) (r_rows r) x y cs ndd vs t (minmax t) hdr HS G TD AO AV N8 (values_of_type s r _ vs GC CT LO V) (proj1 V) W (MM nm t (nth_error_In _ _ EL))) as GV.
    cbv zeta in GV. destruct (GV []) as (_ & PR & F1 & F2 & B1 & B2). split; [split; [exact PR|]|auto]. intros hdr. rewrite RN. apply GV. }
  destruct (back o' (on_disk (files ++ rest)) (read_named true g35 g37 s o' (files ++ rest) minmax) s r (names_of r d core suf 1) g ndd nd calc dflt nv order1 orders NL LN) as (h' & r' & core' & path' & E & CB & HO).
  { rewrite <- NM'. apply disk_exists; [|exact ND]. intros X. rewrite <- NM', map_length, X in LN. cbn in LN. lia. }
  { reflexivity. } { reflexivity. } { exact CV. }
  { intros k nm EN. destruct (GIV k nm EN) as (vs & V & (P & GI) & _). eauto. }
  { intros vs V. apply OR; [reflexivity|reflexivity|exact V]. }
  exists h', r', core', path'. split; [exact E|]. split; [exact CB|].
  destruct (nth_error (names_of r d core suf 1) 0) as [nm|] eqn:EN; [|apply nth_error_None in EN; lia]. destruct (GIV _ _ EN) as (_ & _ & _ & B). exists (fg_xll g), (fg_yll g). split; [exact HO|exact B].
Qed.
End Tif.
