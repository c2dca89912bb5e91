(** Subsets of a raster in MongoDB GridFS: concrete cases. *)
From Coq Require Import ZArith QArith Reals Lra Ascii String List Bool Lia Sorted ZifyBool.
From Flocq Require Import Core BinarySingleNaN.
From Verif Require Import Base ListLib StrModel MapModel MapProofs RasterModel RasterSpec RasterProofs BasicModel FloatModel FloatProofs CoordFloatModel TypeModel MongoModel MongoProofs CopyModel NumModel AscModel AscSpec SubsetModel SubsetSpec SubsetProofs SubsetProofs2 SubsetProofs3 SubsetProofs5 SubsetProps CellModel CellSpec GdalModel GdalProofs3 GridfsModel GridfsSpec GridfsProofs GridfsProofs2 GridfsProofs3 GridfsProofs6 GridfsProps SubGridModel SubGridSpec SubGridProofs SubGridProofs2 SubGridProofs3 SubGridProps.
Import ListNotations.
Open Scope Z_scope.

(** A 2x3 grid of zones 7 and 2 with one NoData cell; the three cells of zone 2 have
    values, zone 7 is not usable. *)
Definition z_feq (a b : num) : bool := match a, b with VI x, VI y => x =? y | _, _ => false end.
Definition z_int (a : num) : option Z := match a with VI x => Some x | _ => None end.
Definition z_full : raster num := FromArray (Some [VI 7; VI (-9999); VI 2; VI 7; VI 2; VI 2]) 3 2 (VI (-9999)) (VI (-9999)) 10 100 200.
Definition z_raster : raster num := match SetCalcPositions z_feq [4;0;1;3;2]%nat z_full with Ok (r, _) => r | _ => z_full end.
Definition z_subs : list (Z * subset f64) := match BuildSubSet z_feq z_int [] z_raster [] [] with Ok (_, subs, _) => subs | _ => [] end.
Definition z_given (ks : Z * subset f64) : subset f64 :=
  if fst ks =? 2 then set_sdata (snd ks) 1 (Some [of_int 20; of_int 21; of_int 22]) None true else set_sdata (snd ks) 0 None None false.
Definition z_header : smap f64 := [(str "NCOLS", of_int 3); (str "NROWS", of_int 2); (str "XLLCENTER", of_int 100); (str "YLLCENTER", of_int 200);
  (str "CELLSIZE", of_int 10); (str "NODATA_VALUE", of_int (-9999)); (str "LAYERS", of_int 1); (str "CELLSNUM", of_int 5)].
Definition z_val (k i l : Z) : f64 := of_int (20 + i).

Lemma z_ok : subsets_given z_feq z_int [] RDT_Int32 z_raster [] z_subs z_given z_header (of_int 100) (of_int 200) (of_int 10) (of_int (-9999)) [] [].
Proof.
  split; [discriminate|]. split.
  { exists [0; 2; 3; 4; 5]. unfold compact. vm_compute. split; [reflexivity|]. split; [reflexivity|]. split; [discriminate|]. split; [reflexivity|].
    split; [reflexivity|]. split; [split; [reflexivity|]; eexists; split; reflexivity|]. split; [reflexivity|]. split; [reflexivity|].
    split; [reflexivity|]. split; repeat constructor; discriminate. }
  split; [repeat split; vm_compute; discriminate|]. split.
  { intros vi v H E _. assert (vi = 0 \/ vi = 1 \/ vi = 2 \/ vi = 3 \/ vi = 4) as Q by (change (r_ncells z_raster) with 5 in H; lia).
    destruct Q as [-> |[-> |[-> |[-> | ->]]]]; vm_compute in E; injection E as <-; discriminate. }
  split; [vm_compute; reflexivity|]. split; [intros ks; unfold z_given; destruct (fst ks =? 2); repeat split|]. split; [vm_compute; intuition discriminate|].
  split; [|split; [|split]].
  - split; [repeat constructor; cbn; intuition discriminate|]. split; [intros k I; vm_compute in I |- *; tauto|]. split.
    + intros k v I. cbn [In z_header] in I. repeat (destruct I as [E|I]; [apply pair_equal_spec in E; destruct E as [<- <-]; right; apply g_int; unfold in_int, INT_MIN, INT_MAX; lia|]). destruct I.
    + repeat split.
  - split; [constructor|]. split; [intros k []|intros k v []].
  - split; [constructor|]. split; [intros k []|intros k v []].
  - intros w E. discriminate E.
Qed.

(** The subsets: cells 1, 3, 4 of the valid cells in a 2x2 window, cells 0 and 2 in a
    2x1 window. *)
Definition z_two : subset f64 := mkSub true 3 (-1) 0 1 1 2 true (Some [(0, 1); (1, 0); (1, 1)]) (Some [1; 2; 3]) (Some [1; 3; 4]) None None.
Definition z_seven : subset f64 := mkSub true 2 (-1) 0 1 0 0 true (Some [(0, 0); (1, 0)]) (Some [0; 1]) (Some [0; 2]) None None.
Lemma z_subs_are : z_subs = [(2, z_two); (7, z_seven)].
Proof. vm_compute. reflexivity. Qed.
Lemma z_In k u : In (k, u) (refill z_given z_subs) -> k = 2 /\ u = z_given (2, z_two) \/ k = 7 /\ u = z_given (7, z_seven).
Proof. rewrite z_subs_are. intros [I|[I|[]]]; apply pair_equal_spec in I; destruct I as [<- <-]; auto. Qed.

Lemma z_corner n a b c z : B2SF (fadd (fmul (of_int a) (of_int b)) (of_int c)) = B2SF (of_int z) -> in_int z -> fits_meta n (fadd (fmul (of_int a) (of_int b)) (of_int c)).
Proof. intros E I. rewrite (B2SF_inj _ _ _ _ E). apply g_int. exact I. Qed.
Lemma z_values : values_given RDT_Int32 2 (of_int 100) (of_int 200) (of_int 10) (refill z_given z_subs) (fun _ => 1) z_val z_val.
Proof.
  intros k u I US. destruct (z_In k u I) as [[-> ->]|[-> ->]]; [|discriminate US].
  split; [unfold in_int, INT_MIN, INT_MAX; lia|]. split; [|split].
  - split; [reflexivity|]. split; [lia|]. cbn [Z.eqb]. exists [of_int 20; of_int 21; of_int 22]. split; [reflexivity|]. split; [reflexivity|].
    intros i Hi. change (s_n (z_given (2, z_two))) with 3 in Hi. assert (i = 0 \/ i = 1 \/ i = 2) as [-> |[-> | ->]] by lia; reflexivity.
  - split; [apply (z_corner _ 1 10 100 110); [vm_compute; reflexivity|unfold in_int, INT_MIN, INT_MAX; lia]|].
    split; [apply (z_corner _ 0 10 200 200); [vm_compute; reflexivity|unfold in_int, INT_MIN, INT_MAX; lia]|]. unfold in_int, INT_MIN, INT_MAX. vm_compute. split; discriminate.
  - intros i l Hi Hl. change (s_n (z_given (2, z_two))) with 3 in Hi. exists (VI (20 + i)). split; [|reflexivity].
    assert (i = 0 \/ i = 1 \/ i = 2) as [-> |[-> | ->]] by lia; vm_compute; reflexivity.
Qed.

Lemma three {A} (d : list A) x y z : Z.of_nat (length d) = 3 -> nth_error d (Z.to_nat 0) = Some x -> nth_error d (Z.to_nat 1) = Some y -> nth_error d (Z.to_nat 2) = Some z -> d = [x; y; z].
Proof. intros L E0 E1 E2. destruct d as [|a [|b [|c [|]]]]; try discriminate L; [|cbn [length] in L; lia]. change (Z.to_nat 1) with 1%nat in E1. change (Z.to_nat 2) with 2%nat in E2. cbn in E0, E1, E2. congruence. Qed.

(** [C90_subsets_round_trip] on them. *)
Example C90_case : exists f own' w',
  OutputSubsetToMongoDB RDT_Int32 z_int (fun _ => third_time) [] z_header [] z_raster (of_int (-9999)) (refill z_given z_subs) (str "zones") [] [] true false false [] (of_int 0) = Ok (true, [f], own') /\
  gf_name f = str "2_zones" /\
  ReadSubset (@hd_error gfile) [f] z_two (str "2_zones") [(str "INCLUDE_NODATA", str "TRUE")] = Ok (true, w') /\ s_data w' = Some [of_int 20; of_int 21; of_int 22] /\
  ReadSubset (@hd_error gfile) [f] z_seven (str "7_zones") [] = Ok (false, z_seven).
Proof.
  destruct (C90_subsets_round_trip (@hd_error gfile) z_feq z_int [] RDT_Int32 z_raster [] z_subs z_given z_header (of_int 100) (of_int 200) (of_int 10) (of_int (-9999)) [] []
    (fun _ => 1) z_val z_val (fun _ => third_time) [] (of_int (-9999)) (str "zones") [] true (of_int 0) g_finds z_ok) as (fs & own' & E & ND & NM & RD & RN).
  - rewrite z_subs_are. discriminate.
  - exact z_values.
  - intros. exact g_saves.
  - intros k u I. destruct (z_In k u I) as [[-> _]|[-> _]]; unfold in_int, INT_MIN, INT_MAX; lia.
  - intros k u _ f [].
  - assert (I2 : In (2, z_given (2, z_two)) (refill z_given z_subs)) by (rewrite z_subs_are; left; reflexivity).
    assert (I7 : In (7, z_given (7, z_seven)) (refill z_given z_subs)) by (rewrite z_subs_are; right; left; reflexivity).
    assert (EF : exists f, fs = [f] /\ gf_name f = str "2_zones").
    { assert (NS : forall n, In n (map gf_name fs) <-> n = str "2_zones").
      { intros n. rewrite NM. split; [intros (k & u & I & US & ->); destruct (z_In k u I) as [[-> ->]|[-> ->]]; [reflexivity|discriminate US]|].
        intros ->. exists 2, (z_given (2, z_two)). split; [exact I2|]. split; reflexivity. }
      destruct fs as [|f [|g fs]]; [exfalso; apply (proj2 (NS (str "2_zones")) eq_refl)|exists f; split; [reflexivity|apply NS; left; reflexivity]|].
      exfalso. cbn [map] in ND. inversion ND as [|? ? N1 _]; subst. apply N1. left.
      transitivity (str "2_zones"); [apply NS; right; left; reflexivity|symmetry; apply NS; left; reflexivity]. }
    destruct EF as (f & -> & FN).
    destruct (RD 2 _ z_two [(str "INCLUDE_NODATA", str "TRUE")] I2 eq_refl) as (w' & R & SC & _ & (_ & _ & d & D & LD & VD)).
    + repeat split.
    + split; intros d E'; discriminate E'.
    + split; [repeat constructor; intros []|]. intros k v [I|[]]. injection I as <- <-. left. split; reflexivity.
    + exists f, own', w'. split; [exact E|]. split; [exact FN|]. split; [exact R|]. split; [|apply (RN 7 _ z_seven [] I7 eq_refl); intros ? ? []].
      rewrite D. destruct SC as (N3 & _). change (s_n (z_given (2, z_two))) with 3 in N3. rewrite N3 in LD, VD.
      rewrite (three d _ _ _ LD (VD 0 ltac:(lia)) (VD 1 ltac:(lia)) (VD 2 ltac:(lia))). reflexivity.
Qed.

(** Nothing can be saved: still true. *)
Example C91_case : exists own',
  OutputSubsetToMongoDB RDT_Int32 z_int (fun _ _ => false) [] z_header [] z_raster (of_int (-9999)) (refill z_given z_subs) (str "zones") [] [] true false false [] (of_int 0) = Ok (true, [], own').
Proof.
  apply (C91_true_without_files_refuted z_feq z_int [] RDT_Int32 z_raster [] z_subs z_given z_header (of_int 100) (of_int 200) (of_int 10) (of_int (-9999)) [] []
    (fun _ => 1) z_val z_val (fun _ _ => false) [] (of_int (-9999)) (str "zones") [] true (of_int 0) [] 2 (z_given (2, z_two)) [(7, z_given (7, z_seven))]).
  - exact z_ok.
  - exact z_values.
  - rewrite z_subs_are. reflexivity.
  - intros k u [].
  - reflexivity.
  - intros k u _ f [].
  - reflexivity.
Qed.

(** [C91_original_refuted] and [C91_no_values_refuted] on the subsets as built. *)
Example C91_original_case saved st : OutputSubsetToMongoDB RDT_Int32 z_int saved st z_header [] z_raster (of_int (-9999)) (refill snd z_subs) (str "zones") [] [] true true true [] (of_int 0) = UB /\
  OutputSubsetToMongoDB RDT_Int32 z_int saved st z_header [] z_raster (of_int (-9999)) (refill snd z_subs) (str "zones") [] [] true false true [] (of_int 0) = UB.
Proof.
  assert (G : subsets_given z_feq z_int [] RDT_Int32 z_raster [] z_subs snd z_header (of_int 100) (of_int 200) (of_int 10) (of_int (-9999)) [] []).
  { destruct z_ok as (A & B & C & D & E & _ & F). repeat (split; [assumption|]). split; [intros ks; repeat split|exact F]. }
  assert (I : In (2, z_two) (refill snd z_subs)) by (rewrite z_subs_are; left; reflexivity). split.
  - apply (C91_original_refuted z_feq z_int [] RDT_Int32 z_raster [] z_subs snd z_header (of_int 100) (of_int 200) (of_int 10) (of_int (-9999)) [] [] saved st _ _ _ _ (VI 0) G).
    + exists 2, z_two. split; [exact I|reflexivity].
    + vm_compute. reflexivity.
  - apply (C91_no_values_refuted z_feq z_int [] RDT_Int32 z_raster [] z_subs snd z_header (of_int 100) (of_int 200) (of_int 10) (of_int (-9999)) [] [] saved st _ _ _ true _ 2 z_two G I); reflexivity.
Qed.

(** [C92_combined_round_trip]: zone 7 not usable, its cells are 5. *)
Example C92_case : exists f own' h1 hs1,
  OutputSubsetToMongoDB RDT_Int32 z_int (fun _ => third_time) [] z_header [] z_raster (of_int (-9999)) (refill z_given z_subs) (str "zones") [] [] true false true [] (of_int 5) = Ok (true, [f], own') /\
  gf_name f = str "0_zones" /\
  ReadGridFsFile (@hd_error gfile) RDT_Int32 [f] (str "0_zones") g_reader [] [] = Ok (true, h1, hs1, Some [VI 5; VI (-9999); VI 20; VI 5; VI 21; VI 22]).
Proof.
  set (V := fun vi l : Z => of_int (if vi =? 1 then 20 else if vi =? 3 then 21 else 22)).
  destruct (C92_combined_round_trip (@hd_error gfile) z_feq z_int [] RDT_Int32 z_raster [] z_subs z_given z_header (of_int 100) (of_int 200) (of_int 10) (of_int (-9999)) [] []
    1 V (fun _ => third_time) [] (of_int (-9999)) (str "zones") [] (of_int 5) (VI 5) [] g_reader [] g_finds z_ok) as (f & own' & h1 & hs1 & d & E & FN & R & _ & _ & LD & A1 & A2).
  - exists 2, (z_given (2, z_two)). split; [rewrite z_subs_are; left; reflexivity|reflexivity].
  - intros k u g I US G. destruct (z_In k u I) as [[-> ->]|[-> ->]]; [|discriminate US]. injection G as <-. split.
    + split; [reflexivity|]. split; [lia|]. cbn [Z.eqb]. exists [of_int 20; of_int 21; of_int 22]. split; [reflexivity|]. split; [reflexivity|].
      intros i Hi. change (s_n (z_given (2, z_two))) with 3 in Hi. assert (i = 0 \/ i = 1 \/ i = 2) as [-> |[-> | ->]] by lia; reflexivity.
    + intros vi l [<- |[<- |[<- |[]]]] _; [exists (VI 20)|exists (VI 21)|exists (VI 22)]; vm_compute; reflexivity.
  - unfold in_int, INT_MIN, INT_MAX. vm_compute. split; discriminate.
  - vm_compute. reflexivity.
  - exact g_saves.
  - split; [constructor|intros k v []].
  - exact g_reads.
  - intros g [].
  - exists f, own', h1, hs1. split; [exact E|]. split; [exact FN|]. rewrite <- app_nil_l with (l := [f]). change (str "0_zones") with (str "0_" ++ str "zones"). rewrite R. repeat f_equal.
    assert (RC : r_cols z_raster = 3) by (vm_compute; reflexivity). assert (RR : r_rows z_raster = 2) by (vm_compute; reflexivity).
    rewrite RC in A1, A2, LD. rewrite RR in LD. clear E R. assert (RN : r_nodata z_raster = VI (-9999)) by (vm_compute; reflexivity). rewrite RN in A2.
    assert (I2 : In (2, z_given (2, z_two)) (refill z_given z_subs)) by (rewrite z_subs_are; left; reflexivity).
    assert (I7 : In (7, z_given (7, z_seven)) (refill z_given z_subs)) by (rewrite z_subs_are; right; left; reflexivity).
    assert (IG : forall k vi v, 0 <= vi < 5 -> read_cell z_raster vi 1 = Ok (VI v) -> v <> -9999 -> k = v -> in_group z_feq z_int z_raster [] k vi).
    { intros k vi v B Ev Nv ->. split; [exact B|]. exists (VI v), v. split; [exact Ev|]. split; [replace (r_nodata z_raster) with (VI (-9999)) by (vm_compute; reflexivity); apply Z.eqb_neq; exact Nv|]. split; [reflexivity|right; split; reflexivity]. }
    assert (N2 : forall vi row col v, 0 <= vi < 5 -> read_cell z_raster vi 1 = Ok (VI 2) -> SubsetSpec.cell_at z_raster vi row col -> cvt RDT_Int32 (VD (V vi 0)) = Ok v ->
       nth_error d (Z.to_nat ((row * 3 + col) * 1 + 0)) = Some v).
    { intros vi row col v B Ev CA CV. destruct (A1 2 _ vi row col 0 I2 (IG 2 vi 2 B Ev ltac:(lia) eq_refl) CA ltac:(lia)) as (v' & En & Hv). change (s_usable (z_given (2, z_two))) with true in Hv. cbn iota in Hv.
      rewrite CV in Hv. injection Hv as <-. exact En. }
    assert (N7 : forall vi row col, 0 <= vi < 5 -> read_cell z_raster vi 1 = Ok (VI 7) -> SubsetSpec.cell_at z_raster vi row col -> nth_error d (Z.to_nat ((row * 3 + col) * 1 + 0)) = Some (VI 5)).
    { intros vi row col B Ev CA. destruct (A1 7 _ vi row col 0 I7 (IG 7 vi 7 B Ev ltac:(lia) eq_refl) CA ltac:(lia)) as (v' & En & Hv). change (s_usable (z_given (7, z_seven))) with false in Hv. cbn iota in Hv.
      rewrite En, Hv. clear. vm_compute. reflexivity. }
    assert (CP : forall vi row col, nth_error [(0, 0); (0, 2); (1, 0); (1, 1); (1, 2)] (Z.to_nat vi) = Some (row, col) -> SubsetSpec.cell_at z_raster vi row col).
    { intros vi row col En. exists [(0, 0); (0, 2); (1, 0); (1, 1); (1, 2)]. split; [vm_compute; reflexivity|exact En]. }
    pose proof (N7 0 0 0 ltac:(lia) ltac:(vm_compute; reflexivity) ltac:(apply CP; reflexivity)) as D0.
    pose proof (N2 1 0 2 (VI 20) ltac:(lia) ltac:(vm_compute; reflexivity) ltac:(apply CP; reflexivity) ltac:(vm_compute; reflexivity)) as D2.
    pose proof (N7 2 1 0 ltac:(lia) ltac:(vm_compute; reflexivity) ltac:(apply CP; reflexivity)) as D3.
    pose proof (N2 3 1 1 (VI 21) ltac:(lia) ltac:(vm_compute; reflexivity) ltac:(apply CP; reflexivity) ltac:(vm_compute; reflexivity)) as D4.
    pose proof (N2 4 1 2 (VI 22) ltac:(lia) ltac:(vm_compute; reflexivity) ltac:(apply CP; reflexivity) ltac:(vm_compute; reflexivity)) as D5.
    assert (D1 : nth_error d (Z.to_nat ((0 * 3 + 1) * 1 + 0)) = Some (VI (-9999))).
    { apply (A2 0 1 0); [unfold inside; rewrite RC, RR; lia|lia|]. intros k vi (B & _) (ps & Ep & En). replace (r_ncells z_raster) with 5 in B by (vm_compute; reflexivity). vm_compute in Ep. injection Ep as <-.
      assert (vi = 0 \/ vi = 1 \/ vi = 2 \/ vi = 3 \/ vi = 4) as Q by lia. destruct Q as [-> |[-> |[-> |[-> | ->]]]]; discriminate En. }
    destruct d as [|a0 [|a1 [|a2 [|a3 [|a4 [|a5 [|]]]]]]]; try discriminate LD; [|cbn [length] in LD; lia]. cbv in D0, D1, D2, D3, D4, D5. clear - D0 D1 D2 D3 D4 D5. injection D0 as ->. injection D1 as ->. injection D2 as ->. injection D3 as ->. injection D4 as ->. injection D5 as ->. reflexivity.
Qed.
