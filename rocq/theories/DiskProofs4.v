(** Files by their names: writing a raster as ASC files and reading them. *)
From Coq Require Import ZArith QArith Reals Lia Lra Ascii String List Bool.
From Flocq Require Import Core BinarySingleNaN Relative.
From Verif Require Import Base ListLib StrModel StrSpec StrProofs MapModel MapProofs BasicModel FloatModel FloatProofs TypeModel CoordFloatModel CoordFloatSpec CoordFloatProofs
  NumModel NumSpec NumProofs FsModel FsSpec FsProofs RasterModel RasterSpec RasterProofs RasterProofs2 RasterProofs3 CopyModel AscModel AscSpec AscProofs AscProofs2 AscProofs3 AscProofs4 MongoModel CellModel CellSpec
  LayersModel LayersSpec LayersProofs LayersProofs2 LayersProofs3 LayersProofs4 LayersProps GdalModel DiskModel DiskSpec DiskProofs DiskProofs2 DiskProofs3.
Import List ListNotations.
Open Scope Z_scope.
Open Scope outcome_scope.

(** ** The grid after printing with six digits *)
Section Digits.
Open Scope R_scope.
Lemma six_near z : 0 <= z -> (1 - bpow radix2 (-10)) * z <= six_digits z <= (1 + bpow radix2 (-10)) * z.
Proof.
  intros Z. pose proof (relative_error_N_FLX radix10 6 ltac:(reflexivity) (fun n => negb (Z.even n)) z) as H. fold (six_digits z) in H. rewrite (Rabs_pos_eq z Z) in H.
  assert (E : / 2 * bpow radix10 (- (6) + 1) * z <= bpow radix2 (-10) * z).
  { apply Rmult_le_compat_r; [exact Z|]. change (bpow radix10 (- (6) + 1)) with (/ IZR (10 ^ 5)). change (bpow radix2 (-10)) with (/ IZR (2 ^ 10)). simpl. lra. }
  apply Rabs_le_inv in H. lra.
Qed.
Lemma double_near z : bpow radix2 (-1000) <= z -> (1 - bpow radix2 (-10)) * z <= to_double z <= (1 + bpow radix2 (-10)) * z.
Proof.
  intros Z. assert (P : 0 <= z) by (pose proof (bpow_gt_0 radix2 (-1000)); lra).
  pose proof (relative_error_N_FLT radix2 (-1074) 53 ltac:(reflexivity) (fun n => negb (Z.even n)) z) as H. fold (to_double z) in H. rewrite (Rabs_pos_eq z P) in H.
  assert (B : bpow radix2 (-1074 + 53 - 1) <= z) by (apply Rle_trans with (2 := Z); apply bpow_le; lia). specialize (H B).
  assert (E : / 2 * bpow radix2 (- (53) + 1) * z <= bpow radix2 (-10) * z).
  { apply Rmult_le_compat_r; [exact P|]. apply Rle_trans with (1 * bpow radix2 (- (53) + 1)); [apply Rmult_le_compat_r; [apply bpow_ge_0|lra]|]. rewrite Rmult_1_l. apply bpow_le. lia. }
  apply Rabs_le_inv in H. lra.
Qed.
Lemma both_near z : bpow radix2 (-30) <= z -> 7 / 8 * z <= to_double (six_digits z) <= 9 / 8 * z.
Proof.
  intros Z. assert (P : 0 <= z) by (pose proof (bpow_gt_0 radix2 (-30)); lra). pose proof (six_near z P) as S.
  assert (T : bpow radix2 (-10) = / 1024) by reflexivity. rewrite T in S.
  assert (B : bpow radix2 (-1000) <= six_digits z).
  { apply Rle_trans with (/ 2 * z); [|lra]. apply Rle_trans with (/ 2 * bpow radix2 (-30)); [|lra]. change (/ 2) with (bpow radix2 (-1)). rewrite <- bpow_plus. apply bpow_le. lia. }
  pose proof (double_near _ B) as D. rewrite T in D. lra.
Qed.

Lemma to_double_abs z : Rabs (to_double z) = to_double (Rabs z).
Proof. unfold to_double. symmetry. apply round_NE_abs. apply FLT_exp_valid. reflexivity. Qed.
Lemma six_digits_abs z : Rabs (six_digits z) = six_digits (Rabs z).
Proof. unfold six_digits. symmetry. apply round_NE_abs. apply FLX_exp_valid. reflexivity. Qed.

Lemma reread_finite x x' : ordinary x -> reread x x' -> is_finite x' = true /\ B2R x' = to_double (six_digits (B2R x)).
Proof.
  intros (F & B) [(F' & E & _)|(_ & C)]; [auto|]. exfalso. rewrite to_double_abs, six_digits_abs in C.
  assert (M : to_double (six_digits (Rabs (B2R x))) <= to_double (six_digits (bpow radix2 80))).
  { apply to_double_le, six_digits_le. apply Rle_trans with (1 := B). change (bpow radix2 80) with (IZR (2 ^ 80)). apply IZR_le. apply Z.leb_le. vm_compute. reflexivity. }
  pose proof (both_near (bpow radix2 80) ltac:(apply bpow_le; lia)) as N.
  assert (L : bpow radix2 81 < bpow radix2 1024) by (apply bpow_lt; lia). change (bpow radix2 81) with (IZR (2 * 2 ^ 80)) in L. rewrite mult_IZR in L. change (IZR (2 ^ 80)) with (bpow radix2 80) in L.
  pose proof (bpow_gt_0 radix2 80). lra.
Qed.

Lemma tidy_reread x y cs x' y' cs' rows cols : tidy_grid x y cs -> ordinary x -> ordinary y -> cell_size cs -> grid_size rows cols ->
  reread x x' -> reread y y' -> reread cs cs' -> sane (mkFgeo rows cols x' y' cs').
Proof.
  intros (_ & _ & _ & (C1 & _) & BX & BY) OX OY OC (GR & GC & GN) RX RY RC.
  destruct (reread_finite _ _ OX RX) as [FX EX]. destruct (reread_finite _ _ OY RY) as [FY EY]. destruct (reread_finite _ _ (proj1 OC) RC) as [FC EC].
  pose proof (both_near _ C1) as NC. rewrite <- EC in NC. pose proof (bpow_gt_0 radix2 (-30)) as P30.
  assert (M : forall a, Rabs a <= bpow radix2 39 * B2R cs -> Rabs (to_double (six_digits a)) <= IZR (2 ^ 40) * B2R cs').
  { intros a A. rewrite to_double_abs, six_digits_abs.
    assert (S : 1 <= bpow radix2 39) by (apply (bpow_le radix2 0); lia).
    pose proof (both_near (bpow radix2 39 * B2R cs)) as N.
    assert (L : bpow radix2 (-30) <= bpow radix2 39 * B2R cs) by (apply Rle_trans with (1 := C1); rewrite <- (Rmult_1_l (B2R cs)) at 1; apply Rmult_le_compat_r; lra). specialize (N L).
    apply Rle_trans with (to_double (six_digits (bpow radix2 39 * B2R cs))); [apply to_double_le, six_digits_le, A|]. apply Rle_trans with (1 := proj2 N).
    change (IZR (2 ^ 40)) with (IZR (2 * 2 ^ 39)). rewrite mult_IZR. change (IZR (2 ^ 39)) with (bpow radix2 39).
    replace (9 / 8 * (bpow radix2 39 * B2R cs)) with (bpow radix2 39 * (9 / 8 * B2R cs)) by ring. replace (2 * bpow radix2 39 * B2R cs') with (bpow radix2 39 * (2 * B2R cs')) by ring.
    apply Rmult_le_compat_l; lra. }
  unfold sane. cbn [fg_xll fg_yll fg_cs fg_rows fg_cols]. split; [exact FX|]. split; [exact FY|]. split; [exact FC|]. split; [split|].
  - apply Rle_trans with (/ 2 * bpow radix2 (-30)); [|lra]. change (/ 2) with (bpow radix2 (-1)). rewrite <- bpow_plus. apply bpow_le. lia.
  - destruct OC as ((_ & B) & _). rewrite Rabs_pos_eq in B by lra. apply Rle_trans with (2 * bpow radix2 80).
    + assert (IZR (10 ^ 22) <= bpow radix2 80) by (change (bpow radix2 80) with (IZR (2 ^ 80)); apply IZR_le; apply Z.leb_le; vm_compute; reflexivity). lra.
    + change 2 with (bpow radix2 1). rewrite <- bpow_plus. apply bpow_le. lia.
  - split; [rewrite EX; apply M, BX|]. split; [rewrite EY; apply M, BY|]. unfold INT_MAX in *. split; nia.
Qed.
End Digits.

Lemma reread_unique x a b : reread x a -> reread x b -> a = b.
Proof. apply double_of_unique. Qed.
Lemma reread_exists x : is_finite x = true -> exists x', reread x x'.
Proof. intros F. exists (fst (strtod (g6 x))). exact (proj1 (strtod_g6 x F)). Qed.

(** ** ASC files *)
Section Asc.
Variables (gdal g35 g37 asserts : bool) (s : rdt) (ord1 ord2 : list nat) (ord : bytes -> list nat) (opened made moved : bytes -> bool) (o : os)
  (h : smap f64) (opts : smap bytes) (r : raster num) (x y cs ndd ndd' : f64) (nd : num) (f a d core suf : bytes).
Hypotheses (NA : named o f a d core suf) (DF : dir_form o d) (AS : asc_suffix suf) (OP : forall nm, opened nm = true)
  (HD : holds_data r) (G : grid_size (r_rows r) (r_cols r)) (IL : in_int (r_nlyrs r)) (HS : header_shows h (r_cols r) (r_rows r) x y cs ndd) (TD : tidy_grid x y cs)
  (OX : ordinary x) (OY : ordinary y) (OC : cell_size cs) (FN : is_finite ndd = true) (RN : reread ndd ndd') (CV : cvt s (VD ndd') = Ok nd).
Let head := lines_text (header_words (r_cols r) (r_rows r) x y cs ndd).

Lemma asc_written : exists (c : Z -> Z -> Z -> bytes) (files : list (bytes * bytes)),
  OutputToFile gdal g35 g37 asserts s ord1 ord2 ord opened made moved o h opts r f = Ok (r, true, map (fun nf => (fst nf, CText (snd nf))) files) /\
  map fst files = names_of r d core suf 0 /\
  (forall k nm t, nth_error files k = Some (nm, t) -> t = head ++ grid_text (c (Z.of_nat k)) (r_rows r) (r_cols r)) /\
  forall k i j, 0 <= k < r_nlyrs r -> inside r i j -> exists v, GetValue r i j (k + 1) = Ok v /\
    (c k i j = show_cell s v /\ (r_is2d r = false \/ stored r i j) \/ r_is2d r = true /\ ~ stored r i j /\ v = r_nodata r /\ c k i j = str "-9999").
Proof using NA DF AS OP HD G HS.
  clear IL TD OX OY OC FN RN CV.
  destruct (name_facts _ _ _ _ _ _ NA) as (AF & AA & _ & _ & PA & _ & AP). pose proof (named_parts o _ _ _ _ _ NA) as EA.
  pose proof G as (GR & GC & GN). destruct (AscProofs4.grid_ints r HD) as (_ & _ & NL).
  assert (GI : in_int (r_cols r) /\ in_int (r_rows r)) by (unfold in_int, INT_MIN, INT_MAX in *; nia).
  assert (WS : written_suffix gdal suf suf) by (left; auto).
  assert (SE : settled o (file_name d core suf)) by (rewrite <- EA; destruct NA as (_ & RA & ND & _); split; assumption).
  destruct (output_cases gdal g35 g37 asserts s ord1 ord2 ord opened made moved o h opts r f a d core suf suf NA WS SE) as (_ & [(_ & OE)|(X & _)]); [|exfalso; exact (not_both _ AS X)].
  rewrite holds_valid in OE by exact HD. rewrite OE. rewrite <- EA. clear OE. unfold out_asc.
  destruct (r_is2d r) eqn:D.
  - destruct (AscProofs4.output_layers (show_cell s) cells_equal o asserts ord1 ord2 opened h r a x y cs ndd HD (proj2 GI) (proj1 GI) HS D) as (c & A & E).
    { rewrite AA, PA. destruct d; discriminate. } { intros. apply OP. }
    rewrite E. cbn [obind]. eexists c, _. split; [reflexivity|]. split; [|split].
    + unfold names_of. rewrite D, map_map. apply map_ext. intros k. cbn [fst]. rewrite Z.add_0_r. unfold AscProofs4.layer_name. rewrite AA. apply AP, DF.
    + intros k nm t EN. rewrite nth_error_map in EN. destruct (nth_error (zseq (r_nlyrs r)) k) as [z|] eqn:EZ; [|discriminate]. cbn [option_map] in EN. injection EN as _ <-.
      assert (K : (k < Z.to_nat (r_nlyrs r))%nat) by (rewrite <- zseq_length; apply nth_error_Some; congruence).
      replace k with (Z.to_nat (Z.of_nat k)) in EZ by lia. rewrite zseq_nth in EZ by lia. injection EZ as <-. reflexivity.
    + intros k i j K IN. destruct (A k i j K IN) as (v & V & [(ST & W)|(ST & ND & W)]); exists v; (split; [exact V|]); [left|right]; auto.
  - destruct (AscProofs4.output_one (show_cell s) cells_equal o asserts ord1 ord2 opened h r a x y cs ndd HD (proj2 GI) (proj1 GI) HS D) as (c & A & E); [apply OP|].
    rewrite E. cbn [obind]. exists (fun _ => c). eexists. split; [reflexivity|]. split; [cbn [map fst]; rewrite AA; unfold names_of; rewrite D, EA; reflexivity|]. split.
    + intros [|k] nm t EN; [injection EN as _ <-; reflexivity|destruct k; discriminate].
    + assert (L1 : r_nlyrs r = 1).
      { destruct HD as [F|[ix F]]; [destruct F as (_ & _ & _ & _ & ST & _)|destruct F as (_ & _ & _ & _ & _ & ST & _)]; unfold storage in ST; rewrite D in ST; exact (proj1 ST). }
      intros k i j K IN. assert (k = 0) by lia. subst k. destruct (A i j IN) as (v & V & W). exists v. split; [exact V|]. left. auto.
Qed.

(** The files as a raster [r2] shows them. *)
Lemma asc_read (show2 : num -> bytes) (r2 : raster num) (c : Z -> Z -> Z -> bytes) (fs : list (bytes * bytes)) :
  r_rows r2 = r_rows r -> r_cols r2 = r_cols r -> r_nlyrs r2 = r_nlyrs r -> map fst fs = names_of r d core suf 0 ->
  (forall k nm t, nth_error fs k = Some (nm, t) -> t = head ++ grid_text (c (Z.of_nat k)) (r_rows r) (r_cols r)) ->
  (forall k i j, 0 <= k < r_nlyrs r -> inside r i j -> exists v, GetValue r2 i j (k + 1) = Ok v /\ AscSpec.readable show2 (cast_cell s) v /\ c k i j = show2 v) ->
  let files := map (fun nf => (fst nf, CText (snd nf))) fs in
  forall o' rest minmax calc dflt nv order1 orders, (forall nm, In nm (names_of r d core suf 0) -> resolves o' nm nm) -> orders_for r2 nd calc order1 orders ->
    exists h' r' core' path' x' y' cs', ReadFromFiles o' (on_disk (files ++ rest)) (read_named gdal g35 g37 s o' (files ++ rest) minmax) s order1 orders (names_of r d core suf 0) calc dflt nv =
      Ok (true, Some (mkLayered h' r' core' path')) /\ comes_back r2 r' nd ndd' /\
      reread x x' /\ reread y y' /\ reread cs cs' /\ header_of h' (mkFgeo (r_rows r) (r_cols r) x' y' cs') ndd'.
Proof using NA AS HD G IL TD OX OY OC FN RN CV.
  clear DF OP HS ord opened made moved.
  intros E1 E2 E3 NM TX CELLS files o' rest minmax calc dflt nv order1 orders RS OR.
  assert (NM' : map fst files = names_of r d core suf 0) by (rewrite <- NM; unfold files; rewrite map_map; reflexivity).
  destruct (AscProofs4.grid_ints r HD) as (GR & GC & NL). pose proof G as (_ & _ & GN).
  assert (ND : NoDup (map fst files)) by (rewrite NM'; apply names_nodup; unfold in_int, INT_MIN, INT_MAX in *; lia).
  assert (LN : Z.of_nat (List.length (names_of r d core suf 0)) = r_nlyrs r).
  { unfold names_of. destruct (r_is2d r) eqn:D; [rewrite map_length, zseq_length; lia|]. destruct HD as [F|[ix F]].
    - destruct F as (_ & _ & _ & _ & ST & _). unfold storage in ST. rewrite D in ST. symmetry. exact (proj1 ST).
    - destruct F as (_ & _ & _ & _ & _ & ST & _). unfold storage in ST. rewrite D in ST. symmetry. exact (proj1 ST). }
  destruct (reread_exists x (proj1 OX)) as (x' & RX). destruct (reread_exists y (proj1 OY)) as (y' & RY). destruct (reread_exists cs (proj1 (proj1 OC))) as (cs' & RC).
  set (g := mkFgeo (r_rows r) (r_cols r) x' y' cs').
  assert (SA : sane g) by (apply (tidy_reread x y cs); assumption).
  assert (CN : forall nd', reread ndd nd' -> exists w, cast_cell s nd' = Ok w).
  { intros nd' R. rewrite (reread_unique _ _ _ R RN). exists nd. exact CV. }
  assert (GIV : forall k nm, nth_error (names_of r d core suf 0) k = Some nm -> exists vs, layer_values r2 (Z.of_nat k + 1) vs /\
    proper (mkFlayer g ndd' vs) /\ forall hdr, gives (read_named gdal g35 g37 s o' (files ++ rest) minmax nm hdr) (mkFlayer g ndd' vs)).
  { intros k nm EN. pose proof (nth_error_In _ _ EN) as INM. rewrite <- NM in EN. rewrite nth_error_map in EN. destruct (nth_error fs k) as [[nm0 t]|] eqn:EF; [|discriminate]. cbn [option_map fst] in EN. injection EN as ->.
    pose proof (TX k nm t EF) as ET.
    assert (K : 0 <= Z.of_nat k < r_nlyrs r).
    { assert (K : (k < List.length fs)%nat) by (apply nth_error_Some; congruence). assert (List.length fs = List.length (names_of r d core suf 0)) by (rewrite <- NM, map_length; reflexivity). lia. }
    assert (EL : nth_error files k = Some (nm, CText t)) by (unfold files; rewrite nth_error_map, EF; reflexivity).
    assert (RD : forall hdr, exists h' vs, read_named gdal g35 g37 s o' (files ++ rest) minmax nm hdr = Ok (true, h', Some vs) /\ header_read hdr h' (r_cols r) (r_rows r) x' y' cs' ndd' /\ layer_values r2 (Z.of_nat k + 1) vs).
    { intros hdr.
      assert (FC : forall i j, 0 <= i < r_rows r -> 0 <= j < r_cols r -> exists v, AscSpec.readable show2 (cast_cell s) v /\ c (Z.of_nat k) i j = show2 v).
      { intros i j I J. destruct (CELLS (Z.of_nat k) i j K (conj I J)) as (v & _ & R & W). eauto. }
      destruct (grid_trip show2 (cast_cell s) (r_cols r) (r_rows r) x y cs ndd (c (Z.of_nat k)) hdr (S (List.length t)) t G OX OY OC FN CN FC ET (Nat.lt_succ_diag_r _))
        as (h' & x2 & y2 & cs2 & nd2 & vs & R1 & R2 & R3 & R4 & RE & HR & LV & VS).
      rewrite (reread_unique _ _ _ R1 RX), (reread_unique _ _ _ R2 RY), (reread_unique _ _ _ R3 RC), (reread_unique _ _ _ R4 RN) in HR.
      exists h', vs. split; [|split; [exact HR|]].
      - unfold read_named. pose proof (filetype_match o' nm ASCIIExtension) as FM. pose proof NA as (_ & _ & _ & PP & SN).
        rewrite (names_suffix r a d core suf 0 nm PP SN INM o' (RS nm INM)) in FM. rewrite (proj2 FM AS), (lookup_nth files ND k nm (CText t) rest EL), RE. reflexivity.
      - split; [rewrite E1, E2; exact LV|]. intros i j (I & J). rewrite E1 in I. rewrite E2 in J. destruct (CELLS (Z.of_nat k) i j K (conj I J)) as (v & V & R & W). exists v. split; [|exact V].
        rewrite E2. apply (VS i j v I J R W). }
    destruct (RD []) as (_ & vs & _ & _ & V). exists vs. split; [exact V|]. split.
    - split; [exact G|]. split; [exact SA|]. cbn [fl_vals fl_geo g fg_rows fg_cols]. rewrite <- E1, <- E2. exact (proj1 V).
    - intros hdr. destruct (RD hdr) as (h' & vs2 & E & ((H1 & H2 & H3 & H4 & H5 & H6) & H7 & H8 & _) & V2).
      assert (EV : vs2 = vs).
      { destruct V as [LV V]. destruct V2 as [LV2 V2]. apply nth_error_ext. intros n. destruct (lt_dec n (List.length vs)) as [L|L].
        - set (z := Z.of_nat n). assert (KZ : 0 <= z < r_rows r2 * r_cols r2) by lia.
          assert (IN : inside r2 (z / r_cols r2) (z mod r_cols r2)).
          { split; [split; [apply Z.div_pos; lia|apply Z.div_lt_upper_bound; nia]|apply Z.mod_pos_bound; lia]. }
          destruct (V _ _ IN) as (w & W1 & W2). destruct (V2 _ _ IN) as (w' & W1' & W2').
          replace (z / r_cols r2 * r_cols r2 + z mod r_cols r2) with z in W1, W1' by (rewrite Z.mul_comm; apply Z.div_mod; lia). unfold z in W1, W1'. rewrite Nat2Z.id in W1, W1'. congruence.
        - rewrite (proj2 (nth_error_None vs n)) by lia. apply nth_error_None. lia. }
      subst vs2. exists h'. split; [exact E|]. split; [|split; [exact H7|cbn [fl_geo g fg_rows fg_cols]; rewrite Z.mul_comm; exact H8]].
      unfold header_of. cbn [fl_geo fl_nodata g fg_rows fg_cols fg_xll fg_yll fg_cs]. repeat (split; [assumption|]). assumption. }
  destruct (back o' (on_disk (files ++ rest)) (read_named gdal g35 g37 s o' (files ++ rest) minmax) s r2 (names_of r d core suf 0) g ndd' nd calc dflt nv order1 orders) as (h' & r' & core' & path' & E & CB & HO).
  { lia. } { lia. }
  { rewrite <- NM'. apply disk_exists; [|exact ND]. intros X. rewrite <- NM', map_length, X in LN. cbn in LN. lia. }
  { symmetry. exact E1. } { symmetry. exact E2. } { exact CV. } { exact GIV. }
  { intros vs V. apply OR; [symmetry; exact E1|symmetry; exact E2|exact V]. }
  exists h', r', core', path', x', y', cs'. auto 8.
Qed.
End Asc.
