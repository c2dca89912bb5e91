(** Subsets of a raster in MongoDB GridFS. *)
From Coq Require Import ZArith QArith Reals Ascii String List Bool Lia Sorted ZifyBool.
From Flocq Require Import Core BinarySingleNaN.
From Verif Require Import Base ListLib StrModel MapModel MapProofs RasterModel RasterSpec RasterProofs BasicModel FloatModel FloatProofs CoordFloatModel TypeModel MongoModel MongoProofs CopyModel NumModel AscModel AscSpec SubsetModel SubsetSpec SubsetProofs SubsetProofs2 SubsetProofs3 SubsetProofs5 SubsetProps CellModel CellSpec GdalModel GdalProofs3 GridfsModel GridfsSpec GridfsProofs GridfsProofs2 GridfsProofs3 GridfsProofs6 GridfsProps SubGridModel SubGridSpec SubGridProofs SubGridProofs2 SubGridProofs3.
Import ListNotations.
Open Scope Z_scope.

(** The subsets of a raster with values of their own, and the header and options
    they are written with. *)
Definition subsets_given (feq : num -> num -> bool) (toint : num -> option Z) (ord : list nat) (s : rdt) (r : raster num) (groups : list (Z * Z))
    (subs : list (Z * subset f64)) (f : Z * subset f64 -> subset f64) (h : smap f64) (x y cs nd : f64) (own opts : smap bytes) : Prop :=
  s <> RDT_Unknown /\ (exists ix, compact r ix) /\ grid_size (r_rows r) (r_cols r) /\ zones_fit feq toint r /\
  BuildSubSet feq toint ord r [] groups = Ok (r, subs, true) /\ (forall ks, same_cells (snd ks) (f ks)) /\
  of_type s (r_nodata r) /\ object_header h r x y cs nd /\ object_options own /\ object_options opts /\ stores_own_type s own opts.

(** Each usable subset has values of its own, which can be stored. *)
Definition values_given (s : rdt) (rows : Z) (x y cs : f64) (subs : list (Z * subset f64)) (L : Z -> Z) (val back : Z -> Z -> Z -> f64) : Prop :=
  forall k u, In (k, u) subs -> s_usable u = true ->
    in_int k /\ holds u (L k) (val k) /\ describable u rows x y cs (L k) /\
    forall i l, 0 <= i < s_n u -> 0 <= l < L k -> kept s (val k i l) (back k i l).

Definition names_unused (st : list gfile) (subs : list (Z * subset f64)) (name : bytes) : Prop :=
  forall k u, In (k, u) subs -> unused st (itoa k ++ str "_" ++ name).

Lemma given_start feq toint ord s r groups subs f h x y cs nd own opts : subsets_given feq toint ord s r groups subs f h x y cs nd own opts ->
  ValidateRasterData r = true /\ in_int (r_rows r) /\ fits_meta (str "CELLSIZE") cs /\
  lookup h K_NROWS = Some (of_int (r_rows r)) /\ lookup h K_XLL = Some x /\ lookup h K_YLL = Some y /\ lookup h K_CELLSIZE = Some cs /\
  NoDup (map fst (refill f subs)) /\ (forall k u, In (k, u) (refill f subs) -> exists g li, placed u g li).
Proof.
  intros (U & (ix & C) & G & F & B & KC & ND & (N & _ & FM & H1 & H2 & H3 & H4 & H5 & H6 & H7) & OO & OP & SO).
  pose proof C as (_ & _ & _ & _ & _ & CS & _). split; [exact (storage_valid r _ CS)|]. split; [destruct G as (G1 & G2 & G3); unfold in_int, INT_MIN, INT_MAX in *; nia|].
  split; [destruct (FM _ _ (lookup_found _ _ _ H6)) as [Q|Q]; [discriminate Q|exact Q]|]. repeat (split; [assumption|]).
  split; [rewrite refill_fst; exact (built_NoDup feq toint r ix groups ord subs C F B)|].
  intros k u I. unfold refill in I. apply in_map_iff in I. destruct I as ([k' u'] & E & I). cbn [fst] in E. injection E as -> <-.
  destruct (built_placed feq toint r ix groups ord subs C F B k u' I) as (g & li & P). exists g, li. exact (placed_same u' _ g li (KC (k, u')) P).
Qed.

(** The values as cells. *)
Definition conv_of (s : rdt) (val : Z -> Z -> Z -> f64) (k i l : Z) : num := match cvt s (VD (val k i l)) with Ok c => c | _ => VI 0 end.
Lemma conv_ok s val back k i l : kept s (val k i l) (back k i l) -> cvt s (VD (val k i l)) = Ok (conv_of s val k i l) /\ as_double (conv_of s val k i l) = back k i l.
Proof. intros (c & E & A). unfold conv_of. rewrite E. auto. Qed.
Lemma values_ready s rows x y cs subs L val back saved : (forall k u, In (k, u) subs -> exists g li, placed u g li) -> values_given s rows x y cs subs L val back ->
  (forall k u, In (k, u) subs -> s_usable u = true -> saves (saved k)) ->
  forall k u, In (k, u) subs -> s_usable u = true -> ready s x y cs rows L val (conv_of s val) saved k u.
Proof.
  intros P V S k u I U. destruct (V k u I U) as (A & B & C & D). unfold ready. split; [exact A|]. split; [exact (P k u I)|]. split; [exact B|]. split; [exact C|]. split; [exact (S k u I U)|].
  intros i l Hi Hl. apply (conv_ok s val back k i l (D i l Hi Hl)).
Qed.

Lemma C48_same_values' pick s saved st name h opts vs rows cols lyrs cells asked h0 hs0 :
  finds pick -> s <> RDT_Unknown -> storable h opts -> target s opts s -> Forall (of_type s) vs -> saves saved ->
  sizes h rows cols lyrs cells -> 0 <= rows -> 0 <= cols -> 0 < lyrs -> 0 < cells ->
  Z.of_nat (length vs) = cells * lyrs -> in_int (cells * lyrs) -> reader_header h0 -> agrees asked (cur s opts) -> unused st name ->
  exists f h' hs',
    WriteStreamDataAsGridfs s saved st name h (Some vs) (cells * lyrs) opts = Ok (true, st ++ [f]) /\ gf_name f = name /\
    ReadGridFsFile pick s (st ++ [f]) name h0 hs0 asked = Ok (true, h', hs', Some vs) /\ header_back h h'.
Proof.
  intros FP U ST TG FV SV SZ R0 C0 L0 N0 LV IN RH AG UN.
  destruct (trip pick s s s saved st name h opts vs vs vs rows cols lyrs cells asked h0 hs0) as (st' & W & E & h' & hs' & R & HB & _); auto.
  - left. auto.
  - clear - FV. induction FV; constructor; [apply cvt_own; assumption|assumption].
  - apply unused_ok. exact UN.
  - rewrite filter_kept in E by exact UN. subst st'. rewrite LV in W. exists (written s s name h opts vs), h', hs'. split; [exact W|]. split; [reflexivity|]. split; [exact R|].
    intros k x E. destruct (HB k x E) as (y & E1 & E2 & _). eauto.
Qed.

(** C90. Each usable subset written with its own values, its name its number before
    the name given, is read back into a subset of the same cells with the values
    written; the others have no file. *)
Theorem C90_subsets_round_trip pick feq toint ord s r groups subs f h x y cs nd own opts L val back saved st dv core filename include default :
  finds pick -> subsets_given feq toint ord s r groups subs f h x y cs nd own opts -> subs <> [] ->
  values_given s (r_rows r) x y cs (refill f subs) L val back ->
  (forall k u, In (k, u) (refill f subs) -> s_usable u = true -> saves (saved k)) ->
  (forall k u, In (k, u) (refill f subs) -> in_int k) ->
  let name := match filename with [] => core | _ => filename end in names_unused st (refill f subs) name ->
  exists fs own', OutputSubsetToMongoDB s toint saved st h own r dv (refill f subs) core filename opts include false false [] default = Ok (true, st ++ fs, own') /\
    NoDup (map gf_name fs) /\
    (forall n, In n (map gf_name fs) <-> exists k u, In (k, u) (refill f subs) /\ s_usable u = true /\ n = itoa k ++ str "_" ++ name) /\
    (forall k u w asked, In (k, u) (refill f subs) -> s_usable u = true -> same_cells u w -> room w (L k) -> asks own opts include asked ->
       exists w', ReadSubset pick (st ++ fs) w (itoa k ++ str "_" ++ name) asked = Ok (true, w') /\
         same_cells u w' /\ s_usable w' = true /\ holds w' (L k) (back k)) /\
    (forall k u w asked, In (k, u) (refill f subs) -> s_usable u = false -> (forall n v, In (n, v) asked -> plain_option v) ->
       ReadSubset pick (st ++ fs) w (itoa k ++ str "_" ++ name) asked = Ok (false, w)).
Proof.
  intros FP GV NE VG SV IK name UN. destruct (given_start _ _ _ _ _ _ _ _ _ _ _ _ _ _ _ GV) as (VA & IR & FC & H1 & H2 & H3 & H4 & NK & PL).
  pose proof GV as (U & _ & _ & _ & _ & _ & ND & _ & OO & OP & SO).
  destruct (options_storable s own opts include OO OP) as [OS _]. pose proof OP as (NO & _). pose proof OO as (NW & _).
  pose proof (options_target s own opts include NO SO U) as TG.
  pose proof (values_ready s (r_rows r) x y cs (refill f subs) L val back saved PL VG SV) as RD.
  destruct (put_all s toint r dv x y cs (r_rows r) name (output_options s own opts include) include default L val (conv_of s val) saved U OS TG FC ND
    (refill f subs) st [] ltac:(split; [constructor|intros k []]) NK RD ltac:(intros k u I _; exact (UN k u I))) as (fs & h' & E & A1 & A2 & A3).
  exists fs, (output_options s own opts include). split; [|split; [exact A1|split; [|split]]].
  - unfold OutputSubsetToMongoDB. rewrite VA. cbn [negb]. destruct (refill f subs) as [|p q] eqn:Er; [destruct subs; [congruence|discriminate Er]|].
    unfold at_get. rewrite H1, H2, H3, H4. cbn [obind]. rewrite (f_int_of_int _ IR). cbn [obind]. etransitivity; [exact (f_equal (fun m => obind m _) E)|reflexivity].
  - intros n. split.
    + intros I. apply in_map_iff in I. destruct I as (g & <- & I). destruct (A2 g I) as (k & u & I' & US & EN). exists k, u. auto.
    + intros (k & u & I & US & ->). destruct (A3 k u I US) as (g & Ig & (h0 & d & -> & _)). apply in_map_iff. eexists. split; [|exact Ig]. reflexivity.
  - intros k u w asked I US SC RM AS. destruct (A3 k u I US) as (g & Ig & SG). destruct (PL k u I) as (gl & li & P).
    destruct (read_back s 0 name (output_options s own opts include) include L val (conv_of s val) saved U TG pick st fs k u g w asked gl li FP P SG Ig A1 (UN k u I)
      (asks_agrees s own opts include asked NW NO AS) SC RM) as (w' & E1 & E2 & E3 & E4).
    exists w'. split; [exact E1|]. split; [exact E2|]. split; [exact E3|]. destruct (VG k u I US) as (_ & _ & _ & KV). destruct E4 as (B1 & B2 & B3). split; [exact B1|]. split; [exact B2|].
    assert (NN : s_n w' = s_n u) by apply E2.
    destruct (L k =? 1) eqn:EL.
    + destruct B3 as (d & Ed & Ld & Vd). exists d. split; [exact Ed|]. split; [exact Ld|]. intros i Hi. rewrite (Vd i Hi). f_equal. apply conv_ok, KV; lia.
    + destruct B3 as (d & Ed & Ld & Vd). exists d. split; [exact Ed|]. split; [exact Ld|]. intros i Hi. destruct (Vd i Hi) as (row & Er & Lr & Vr). exists row.
      split; [exact Er|]. split; [exact Lr|]. intros l Hl. rewrite (Vr l Hl). f_equal. apply conv_ok, KV; lia.
  - intros k u w asked I US PO. unfold ReadSubset. rewrite (read_none pick RDT_Double (st ++ fs) (itoa k ++ str "_" ++ name)); [reflexivity|exact FP| |exact PO].
    intros g Ig. apply in_app_iff in Ig. destruct Ig as [Ig|Ig]; [exact (UN k u I g Ig)|]. destruct (A2 g Ig) as (k' & u' & I' & US' & EN). rewrite EN. intros Q.
    apply name_inj in Q; [|exact (IK k' u' I')|exact (IK k u I)]. subst k'.
    enough (u' = u) by congruence. clear - NK I I'. revert I I' NK. generalize (refill f subs). intros l. induction l as [|[a b] l IH]; [intros []|]. intros I I' N.
    cbn [map fst] in N. inversion N as [|? ? N1 N2]; subst. destruct I as [I|I], I' as [I'|I']; [congruence|..|auto].
    + injection I as -> ->. exfalso. apply N1. change k with (fst (k, u')). apply in_map. exact I'.
    + injection I' as -> ->. exfalso. apply N1. change k with (fst (k, u)). apply in_map. exact I.
Qed.
Print Assumptions C90_subsets_round_trip.

(** C91. The result of writing the subsets is true even though nothing is stored:
    the file of the first usable subset cannot be saved, and the others are not
    written. *)
Theorem C91_true_without_files_refuted feq toint ord s r groups subs f h x y cs nd own opts L val back saved st dv core filename include default pre k0 u0 post :
  subsets_given feq toint ord s r groups subs f h x y cs nd own opts -> values_given s (r_rows r) x y cs (refill f subs) L val back ->
  refill f subs = pre ++ (k0, u0) :: post -> (forall k u, In (k, u) pre -> s_usable u = false) -> s_usable u0 = true ->
  let name := match filename with [] => core | _ => filename end in names_unused st (refill f subs) name ->
  (forall n, (n < 4)%nat -> saved k0 n = false) ->
  exists own', OutputSubsetToMongoDB s toint saved st h own r dv (refill f subs) core filename opts include false false [] default = Ok (true, st, own').
Proof.
  intros GV VG SP NP U0 name UN SV. destruct (given_start _ _ _ _ _ _ _ _ _ _ _ _ _ _ _ GV) as (VA & IR & FC & H1 & H2 & H3 & H4 & NK & PL).
  pose proof GV as (U & _ & _ & _ & _ & _ & ND & _ & OO & OP & SO).
  destruct (options_storable s own opts include OO OP) as [OS _]. pose proof OP as (NO & _).
  pose proof (options_target s own opts include NO SO U) as TG.
  pose proof (values_ready s (r_rows r) x y cs (refill f subs) L val back (fun _ _ => true) PL VG ltac:(intros; exists 0%nat; split; [lia|reflexivity])) as RD.
  destruct (put_none s toint r dv x y cs (r_rows r) name (output_options s own opts include) include default L val (conv_of s val) saved U OS TG FC
    (refill f subs) st [] k0 u0 pre post SP NP U0 ltac:(split; [constructor|intros k []]) RD) as (h' & E).
  - apply (UN k0 u0). rewrite SP. apply in_app_iff. right. left. reflexivity.
  - exact SV.
  - exists (output_options s own opts include). unfold OutputSubsetToMongoDB. rewrite VA. cbn [negb]. destruct (refill f subs) as [|p q] eqn:Er; [destruct pre; discriminate SP|].
    unfold at_get. rewrite H1, H2, H3, H4. cbn [obind]. rewrite (f_int_of_int _ IR). cbn [obind]. etransitivity; [exact (f_equal (fun m => obind m _) E)|reflexivity].
Qed.
Print Assumptions C91_true_without_files_refuted.

(** Writing the original values of all subsets in one file uses numbers that were
    never set. *)
Theorem C91_original_refuted feq toint ord s r groups subs f h x y cs nd own opts saved st dv core filename default v :
  subsets_given feq toint ord s r groups subs f h x y cs nd own opts ->
  (exists k u, In (k, u) (refill f subs) /\ s_usable u = true) ->
  cvt s (VD (if FloatEqual default nodata_value then dv else default)) = Ok v ->
  OutputSubsetToMongoDB s toint saved st h own r dv (refill f subs) core filename opts true true true [] default = UB.
Proof.
  intros GV US DV. destruct (given_start _ _ _ _ _ _ _ _ _ _ _ _ _ _ _ GV) as (VA & IR & FC & H1 & H2 & H3 & H4 & NK & PL).
  pose proof GV as (U & (ix & C) & _ & F & B & KC & _). destruct (built _ _ _ _ _ _ _ C F B) as [KS ZF].
  assert (KP : keeps_cells f) by (intros ks; destruct (KC ks) as (Q1 & Q2 & Q3 & Q4 & Q5 & Q6 & Q7); repeat split; assumption).
  pose proof (prepare_origin feq toint r ix groups C subs KS ZF FloatEqual as_double (to_cell s) nodata_value f KP default dv v US DV) as P.
  change (map (fun ks => (fst ks, f ks)) subs) with (refill f subs) in P.
  unfold OutputSubsetToMongoDB. rewrite VA. cbn [negb]. destruct (refill f subs) as [|p q] eqn:Er; [destruct US as (? & ? & [] & _)|].
  unfold at_get. rewrite H1. cbn [obind]. rewrite (f_int_of_int _ IR). cbn [obind]. rewrite P. reflexivity.
Qed.
Print Assumptions C91_original_refuted.

(** So does writing the values of all subsets in one file when one has none. *)
Theorem C91_no_values_refuted feq toint ord s r groups subs f h x y cs nd own opts saved st dv core filename include default k u :
  subsets_given feq toint ord s r groups subs f h x y cs nd own opts ->
  In (k, u) (refill f subs) -> s_usable u = true -> s_data u = None -> s_data2 u = None ->
  OutputSubsetToMongoDB s toint saved st h own r dv (refill f subs) core filename opts include false true [] default = UB.
Proof.
  intros GV I US D1 D2. destruct (given_start _ _ _ _ _ _ _ _ _ _ _ _ _ _ _ GV) as (VA & IR & FC & H1 & H2 & H3 & H4 & NK & PL).
  unfold OutputSubsetToMongoDB. rewrite VA. cbn [negb]. assert (SL : forall l acc, In (k, u) l -> subset_layers true l acc = None).
  { clear - US D1 D2. induction l as [|[a b] l IH]; [intros acc []|]. intros acc [I|I].
    - injection I as -> ->. cbn [subset_layers]. rewrite US, D1, D2. reflexivity.
    - cbn [subset_layers]. destruct (negb (s_usable b)); [auto|]. destruct (isnull (s_data b) && isnull (s_data2 b)); [reflexivity|]. cbn [andb]. destruct (acc <? 0); [auto|]. destruct (s_lyrs b =? acc); auto. }
  assert (P : PrepareCombSubsetData FloatEqual toint as_double (to_cell s) nodata_value r dv (refill f subs) false include [] default = Ok None).
  { unfold PrepareCombSubsetData. cbn [recls_layers]. destruct (refill f subs) as [|p q] eqn:Er; [reflexivity|]. rewrite (SL _ _ I). reflexivity. }
  rewrite P. destruct (refill f subs) as [|p q] eqn:Er; [destruct I|].
  unfold at_get. rewrite H1. cbn [obind]. rewrite (f_int_of_int _ IR). reflexivity.
Qed.
Print Assumptions C91_no_values_refuted.

(** C92. The values of all usable subsets in one file: read back, it is the grid
    with each value at its cell, the cells of the other subsets with the default
    (NoData if that is the default), and NoData elsewhere. *)
Theorem C92_combined_round_trip pick feq toint ord s r groups subs f h x y cs nd own opts L V saved st dv core filename default dfv asked h0 hs0 :
  finds pick -> subsets_given feq toint ord s r groups subs f h x y cs nd own opts ->
  (exists k u, In (k, u) (refill f subs) /\ s_usable u = true) ->
  (forall k u g, In (k, u) (refill f subs) -> s_usable u = true -> s_global u = Some g ->
     holds u L (fun i l => V (nth (Z.to_nat i) g 0) l) /\ forall vi l, In vi g -> 0 <= l < L -> exists c, cvt s (VD (V vi l)) = Ok c) ->
  in_int (r_rows r * r_cols r * L) ->
  let def := if FloatEqual default nodata_value then dv else default in
  cvt s (VD def) = Ok dfv -> saves (saved 0) -> asks own opts true asked -> reader_header h0 ->
  let name := str "0_" ++ match filename with [] => core | _ => filename end in unused st name ->
  exists g own' h1 hs1 d,
    OutputSubsetToMongoDB s toint saved st h own r dv (refill f subs) core filename opts true false true [] default = Ok (true, st ++ [g], own') /\
    gf_name g = name /\
    ReadGridFsFile pick s (st ++ [g]) name h0 hs0 asked = Ok (true, h1, hs1, Some d) /\
    (exists z, lookup h1 (str "LAYERS") = Some z /\ same_number (of_int L) z) /\
    (forall k v, lookup h k = Some v -> k <> str "LAYERS" -> k <> str "CELLSNUM" -> exists z, lookup h1 k = Some z /\ same_number v z) /\
    Z.of_nat (length d) = r_rows r * r_cols r * L /\
    (forall k u vi row col l, In (k, u) (refill f subs) -> in_group feq toint r groups k vi -> SubsetSpec.cell_at r vi row col -> 0 <= l < L ->
       exists v, nth_error d (Z.to_nat ((row * r_cols r + col) * L + l)) = Some v /\
         if s_usable u then cvt s (VD (V vi l)) = Ok v else v = if FloatEqual (as_double (r_nodata r)) def then r_nodata r else dfv) /\
    (forall row col l, inside r row col -> 0 <= l < L -> (forall k vi, in_group feq toint r groups k vi -> ~ SubsetSpec.cell_at r vi row col) ->
       nth_error d (Z.to_nat ((row * r_cols r + col) * L + l)) = Some (r_nodata r)).
Proof.
  intros FP GV US HV IN def DV SV AS RH name UN. destruct (given_start _ _ _ _ _ _ _ _ _ _ _ _ _ _ _ GV) as (VA & IR & FC & H1 & H2 & H3 & H4 & NK & PL).
  pose proof GV as (U & (ix & C) & (G1 & G2 & G3) & F & B & KC & ND & OH & OO & OP & SO).
  destruct (options_storable s own opts true OO OP) as [OS _]. pose proof OP as (NO & _). pose proof OO as (NW & _).
  pose proof (options_target s own opts true NO SO U) as TG.
  set (conv := fun vi l => match cvt s (VD (V vi l)) with Ok c => c | _ => VI 0 end).
  assert (CO : forall k u g vi l, In (k, u) (refill f subs) -> s_usable u = true -> s_global u = Some g -> In vi g -> 0 <= l < L -> cvt s (VD (V vi l)) = Ok (conv vi l)).
  { intros k u g vi l I Hu Hg Hi Hl. destruct (HV k u g I Hu Hg) as [_ X]. destruct (X vi l Hi Hl) as (c & E). unfold conv. rewrite E. reflexivity. }
  destruct (comb_prepare feq toint s r ix groups ord subs f C F B KC L V conv dv default dfv) as (L0 & d & PE & LD & A1 & A2); [| |exact US|exact DV|].
  { intros k u g I Hu Hg. apply (HV k u g I Hu Hg). }
  { intros vi l Hl (k & u & g & I & Hu & Hg & Hi). eapply CO; eassumption. }
  fold def in A1.
  destruct (partition (D := f64) feq toint r ix groups ord C F) as (subs' & B' & _ & P1 & P2). assert (subs' = subs) by congruence. subst subs'.
  assert (GR : forall k u vi, In (k, u) (refill f subs) -> in_group feq toint r groups k vi -> exists g, s_global u = Some g /\ In vi g).
  { intros k u vi I IG. unfold refill in I. apply in_map_iff in I. destruct I as ([k' u'] & E & I). cbn [fst] in E. injection E as -> <-.
    destruct (P1 k u' I) as (g & Eg & _ & _ & _ & Q). exists g. destruct (KC (k, u')) as (_ & _ & _ & _ & _ & _ & K7). cbn [snd] in K7. split; [congruence|apply Q; exact IG]. }
  assert (A1' : forall k u vi row col l, In (k, u) (refill f subs) -> in_group feq toint r groups k vi -> SubsetSpec.cell_at r vi row col -> 0 <= l < L ->
       exists v, nth_error d (Z.to_nat ((row * r_cols r + col) * L + l)) = Some v /\
         if s_usable u then cvt s (VD (V vi l)) = Ok v else v = if FloatEqual (as_double (r_nodata r)) def then r_nodata r else dfv).
  { intros k u vi row col l I IG CA Hl. eexists. split; [exact (A1 k u vi row col l I IG CA Hl)|]. destruct (s_usable u) eqn:Hu; [|reflexivity].
    destruct (GR k u vi I IG) as (g & Hg & Hi). eapply CO; eassumption. }
  assert (N0 : 0 < r_rows r * r_cols r) by (apply Z.mul_pos_pos; assumption).
  assert (FT : Forall (of_type s) d).
  { apply Forall_forall. intros v I. destruct (In_nth_error _ _ I) as [n E]. assert (n < length d)%nat by (apply nth_error_Some; congruence).
    set (q := Z.of_nat n / L). set (l := Z.of_nat n mod L). assert (QK : Z.of_nat n = L * q + l) by (apply Z.div_mod; lia).
    assert (K : 0 <= l < L) by (apply Z.mod_pos_bound; lia). assert (Q : 0 <= q < r_rows r * r_cols r) by nia.
    set (i := q / r_cols r). set (j := q mod r_cols r). assert (IJ : q = r_cols r * i + j) by (apply Z.div_mod; lia).
    assert (J : 0 <= j < r_cols r) by (apply Z.mod_pos_bound; lia). assert (I' : 0 <= i < r_rows r) by nia.
    assert (EN : n = Z.to_nat ((i * r_cols r + j) * L + l)) by (clear - QK IJ; rewrite (Z.mul_comm i), <- IJ, Z.mul_comm, <- QK; lia).
    clearbody q l i j. rewrite EN in E.
    destruct (Classical_Prop.classic (exists k vi, in_group feq toint r groups k vi /\ SubsetSpec.cell_at r vi i j)) as [(k & vi & IG & CA)|NG].
    - pose proof IG as (R0 & v0 & z & RC & NV & _). destruct (P2 vi v0 R0 RC NV) as (k' & u' & I2 & IG' & _).
      assert (I3 : In (k', f (k', u')) (refill f subs)) by (unfold refill; apply in_map_iff; exists (k', u'); auto).
      destruct (A1' k' _ vi i j l I3 IG' CA K) as (v' & E' & X). rewrite E in E'. injection E' as <-.
      destruct (s_usable (f (k', u'))); [eapply cvt_type; [exact X|exact U]|]. rewrite X. destruct (FloatEqual _ def); [exact ND|eapply cvt_type; [exact DV|exact U]].
    - rewrite (A2 i j l) in E; [injection E as <-; exact ND|split; assumption|exact K|]. intros k vi IG CA. apply NG. exists k, vi. auto. }
  destruct (int_parts (r_rows r) (r_cols r) (r_rows r * r_cols r) L G1 G2 ltac:(lia) L0 IN) as (I1 & I2 & I3 & I4 & I5 & I6).
  destruct (comb_storable r h x y cs nd L (r_rows r * r_cols r) (output_options s own opts true) OH I3 I4 OS I1 I2) as [ST SZ].
  destruct (C48_same_values' pick s (saved 0) st name (comb_hdr h L (r_rows r * r_cols r)) (output_options s own opts true) d (r_rows r) (r_cols r) L (r_rows r * r_cols r) asked h0 hs0)
    as (g & h1 & hs1 & W & FN & R & HB); auto; try lia.
  - apply asks_agrees; assumption.
  - pose proof OH as (NH & _). exists g, (output_options s own opts true), h1, hs1, d. split.
    + unfold OutputSubsetToMongoDB. rewrite VA. cbn [negb]. destruct (refill f subs) as [|p q] eqn:Er; [destruct US as (? & ? & [] & _)|].
      unfold at_get. rewrite H1. cbn [obind]. rewrite (f_int_of_int _ IR). cbn [obind]. rewrite PE. cbn [obind]. replace (L =? 0) with false by lia.
      replace (r_rows r * r_cols r * L <=? 0) with false by nia. rewrite Z.quot_mul by lia. fold (comb_hdr h L (r_rows r * r_cols r)).
      match goal with |- context [obind ?m _] => replace m with (Ok (true, st ++ [g])) by (symmetry; exact W) end. reflexivity.
    + split; [exact FN|]. split; [exact R|]. split; [|split; [|split; [exact LD|split; [exact A1'|exact A2]]]].
      * apply HB. rewrite comb_hdr_lookup by exact NH. reflexivity.
      * intros k v E K1 K2. apply HB. rewrite comb_hdr_lookup by exact NH.
        destruct (beqb K_CELLSNUM k) eqn:Q1; [apply beqb_true in Q1; subst k; exfalso; apply K2; reflexivity|].
        destruct (beqb K_LAYERS k) eqn:Q2; [apply beqb_true in Q2; subst k; exfalso; apply K1; reflexivity|exact E].
Qed.
Print Assumptions C92_combined_round_trip.
