(** Layers read from files: the object. *)
From Coq Require Import ZArith Reals Lia Lra Ascii String List Bool Permutation Sorted ZifyBool.
From Flocq Require Import Core BinarySingleNaN.
From Verif Require Import Base ListLib StrModel MapModel BasicModel FloatModel FloatProofs TypeModel CoordFloatModel CoordFloatSpec CoordFloatProofs
  FsModel RasterModel RasterSpec RasterProofs RasterProofs2 CopyModel AscModel AscSpec AscProofs AscProofs2 CellModel GridfsModel LayersModel LayersSpec LayersProofs LayersProofs2.
Import ListNotations.
Open Scope Z_scope.
Open Scope outcome_scope.

(** ** The number of layers does not matter while the raster is one-dimensional *)
Definition set_lyrs (n : Z) (r : raster num) : raster num :=
  mkRaster (r_rows r) (r_cols r) (r_xll r) (r_yll r) (r_cs r) (r_hnodata r) (r_hcells r) (r_hlyrs r)
    (r_ncells r) n (r_nodata r) (r_default r) (r_is2d r) (r_data r) (r_data2d r)
    (r_pos r) (r_posidx r) (r_calc r) (r_store r) (r_maskext r) (r_init r).

Definition omap1 {A B} (f : A -> B) (x : outcome A) : outcome B := let* a := x in Ok (f a).

Lemma fill_step_lyrs n r vs i : r_is2d r = false ->
  fill_step (set_lyrs n r) vs i = omap1 (set_lyrs n) (fill_step r vs i) /\
  (forall r', fill_step r vs i = Ok r' -> r_is2d r' = false).
Proof.
  intros E. unfold fill_step, omap1. cbn [set_lyrs r_is2d r_cols]. rewrite E. destruct (nth_error vs i) as [c|]; [|split; [reflexivity|discriminate]].
  destruct (vc_vals c) as [|v t]; [split; [reflexivity|discriminate]|]. unfold write_cell. cbn [set_lyrs r_is2d r_data r_data2d]. rewrite E.
  destruct (r_data r) as [d|]; cbn [deref obind]; [|split; [reflexivity|discriminate]].
  destruct (aset d (Z.of_nat i) v); cbn [obind]; [|split; [reflexivity|discriminate]..]. cbn [set_cells set_lyrs r_pos r_posidx].
  destruct (r_pos r) as [p|]; cbn [deref obind]; [|split; [reflexivity|discriminate]].
  destruct (r_posidx r) as [ix|]; cbn [deref obind]; [|split; [reflexivity|discriminate]].
  destruct (aset p (Z.of_nat i) (vc_row c, vc_col c)); cbn [obind]; [|split; [reflexivity|discriminate]..].
  destruct (aset ix (Z.of_nat i) (vc_row c * r_cols r + vc_col c)); cbn [obind]; [|split; [reflexivity|discriminate]..].
  split; [reflexivity|]. intros r' H. injection H as <-. exact E.
Qed.

Lemma fill_loop_lyrs n vs : forall ord r, r_is2d r = false ->
  ofold (fun r i => fill_step r vs i) ord (set_lyrs n r) = omap1 (set_lyrs n) (ofold (fun r i => fill_step r vs i) ord r).
Proof.
  induction ord as [|i ord IH]; intros r E; [reflexivity|]. cbn [ofold]. destruct (fill_step_lyrs n r vs i E) as [F G]. rewrite F.
  unfold omap1. destruct (fill_step r vs i) as [r'| |] eqn:EF; cbn [obind]; [|reflexivity..]. apply IH. apply G. reflexivity.
Qed.

Lemma ofold_same {A B} (f g : A -> B -> outcome A) : (forall a b, f a b = g a b) -> forall l a, ofold f l a = ofold g l a.
Proof. intros H. induction l as [|b l IH]; intros a; [reflexivity|]. cbn [ofold]. rewrite H. destruct (g a b); cbn [obind]; auto. Qed.

Lemma collect_lyrs n r : r_is2d r = false -> collect_valid cells_equal (set_lyrs n r) = collect_valid cells_equal r.
Proof.
  intros E. unfold collect_valid. cbn [set_lyrs r_rows r_cols]. apply ofold_same. intros acc ij.
  unfold read_cell. cbn [set_lyrs r_is2d r_data r_nodata r_cols]. rewrite E. cbn [andb]. reflexivity.
Qed.

Lemma calc_lyrs n ord r : r_is2d r = false ->
  CalculateValidPositions cells_equal ord (set_lyrs n r) = omap1 (set_lyrs n) (CalculateValidPositions cells_equal ord r).
Proof.
  intros E. unfold CalculateValidPositions. rewrite collect_lyrs by exact E.
  destruct (collect_valid cells_equal r) as [vs| |]; cbn [obind]; [|reflexivity..]. cbn [set_lyrs r_is2d r_data2d r_nodata r_nlyrs set_ncells r_data]. rewrite E. cbn [obind].
  set (r3 := set_pos (set_cells (set_ncells r (Z.of_nat (List.length vs)) (Z.of_nat (List.length vs))) (init1d None (Z.of_nat (List.length vs)) (r_nodata r)) (r_data2d r))
    (init2d (r_pos r) (Z.of_nat (List.length vs)) (0, 0)) (init1d (r_posidx r) (Z.of_nat (List.length vs)) 0) (r_calc r) true).
  match goal with |- context [ofold _ ord ?x] => change x with (set_lyrs n r3) end.
  rewrite fill_loop_lyrs by exact E. unfold omap1. cbn [set_ncells set_cells r_data2d r_pos r_posidx r_calc]. fold r3.
  destruct (ofold _ ord r3); reflexivity.
Qed.

(** ** The first layer *)
Section First.
Variables (s : rdt) (l : flayer) (nd : num) (h : smap f64) (calc : bool) (dflt nv : num) (lyrs : Z).
Hypotheses (P : proper l) (CV : cvt s (VD (fl_nodata l)) = Ok nd) (LY : 1 <= lyrs)
  (HH : header_of h (fl_geo l) (fl_nodata l)) (HL : lookup h (str "LAYERS") = Some (of_int 1))
  (HC : lookup h (str "CELLSNUM") = Some (of_int (fg_rows (fl_geo l) * fg_cols (fl_geo l)))).
Let g := fl_geo l.
Let rows := fg_rows g.
Let cols := fg_cols g.

Definition raw (n : Z) : raster num :=
  mkRaster rows cols (q_of (fg_xll g)) (q_of (fg_yll g)) (q_of (fg_cs g)) nd (rows * cols) 1
    (-1) n nd (checked_default cells_equal dflt nd nv) false (Some (fl_vals l)) None None None calc false false true.

(** The raster with all its cells. *)
Definition plain : raster num := set_ncells (raw 1) (rows * cols) (rows * cols).

Lemma plain_full : full_grid plain.
Proof using P.
  destruct P as ((R & C & M) & S & L). unfold full_grid, plain, storage, raw. cbn [set_ncells r_rows r_cols r_nlyrs r_ncells r_is2d r_data r_pos r_posidx].
  split; [exact R|]. split; [exact C|]. split; [lia|]. split; [reflexivity|]. split; [|split; reflexivity]. split; [reflexivity|]. exists (fl_vals l). split; [reflexivity|exact L].
Qed.

(** The numbers of the valid cells. *)
Definition numbers : list Z := filter (fun k => negb (cells_equal (nth (Z.to_nat k) (fl_vals l) nd) nd)) (zseq (rows * cols)).

Lemma read_plain k : 0 <= k < rows * cols -> read_cell plain k 1 = Ok (nth (Z.to_nat k) (fl_vals l) nd).
Proof using P.
  intros K. destruct P as (_ & _ & L). unfold read_cell, plain, raw. cbn [set_ncells r_is2d r_data deref obind].
  apply aget_ok; [lia|]. apply nth_error_nth'. fold g rows cols in L. lia.
Qed.

Lemma numbers_valid : valid_idx cells_equal plain = numbers.
Proof using P.
  unfold valid_idx, numbers. change (r_rows plain) with rows. change (r_cols plain) with cols. apply filter_ext_in. intros k K. apply zseq_mem in K.
  unfold validb. rewrite read_plain by exact K. reflexivity.
Qed.

Lemma numbers_count : Z.of_nat (List.length numbers) = valid_count l nd.
Proof using P.
  destruct P as (_ & _ & L). unfold valid_count, numbers. f_equal. fold g rows cols in L. rewrite <- L. unfold zseq. rewrite Nat2Z.id. clear L.
  set (vs := fl_vals l). clearbody vs. clear.
  assert (G : forall vs pre, List.length (filter (fun k => negb (cells_equal (nth (Z.to_nat k) (pre ++ vs) nd) nd)) (map Z.of_nat (seq (List.length pre) (List.length vs)))) =
     List.length (filter (fun v => negb (cells_equal v nd)) vs)).
  { clear vs. induction vs as [|v vs IH]; intros pre; [reflexivity|]. cbn [List.length seq map filter]. rewrite Nat2Z.id.
    rewrite app_nth2, Nat.sub_diag by lia. cbn [nth]. specialize (IH (pre ++ [v])). rewrite app_length in IH. cbn [List.length] in IH. rewrite Nat.add_1_r, <- app_assoc in IH.
    cbn [app] in IH. destruct (cells_equal v nd); cbn [negb List.length]; rewrite IH; reflexivity. }
  exact (G vs []).
Qed.

(** The valid cells only. *)
Definition shrunk : raster num :=
  let n := Z.of_nat (List.length numbers) in
  mkRaster rows cols (q_of (fg_xll g)) (q_of (fg_yll g)) (q_of (fg_cs g)) nd n 1
    n lyrs nd (checked_default cells_equal dflt nd nv) false
    (if n <=? 0 then None else Some (map (fun k => nth (Z.to_nat k) (fl_vals l) nd) numbers)) None
    (Some (map (fun k => (k / cols, k mod cols)) numbers)) (if n <=? 0 then None else Some numbers) true true false true.

Lemma construct_shrunk ord : calc = true -> schedule (valid_count l nd) ord ->
  CalcNoMask cells_equal ord (raw lyrs) = Ok (shrunk, 1).
Proof using P.
  intros CT SC. rewrite <- numbers_count in SC. unfold CalcNoMask. change (r_calc (raw lyrs)) with calc. rewrite CT.
  change (isnull (r_pos (raw lyrs)) || isnull (r_posidx (raw lyrs))) with true. cbn iota.
  change (raw lyrs) with (set_lyrs lyrs (raw 1)). rewrite calc_lyrs by reflexivity.
  assert (FP : full_grid plain) by exact plain_full.
  assert (E : CalculateValidPositions cells_equal ord (raw 1) = CalculateValidPositions cells_equal ord plain) by reflexivity.
  rewrite E, CalculateValidPositions_full; [|exact FP|rewrite numbers_valid; exact SC]. unfold omap1. cbn [obind].
  unfold compacted. rewrite numbers_valid.
  rewrite (concat_single _ (fun k => nth (Z.to_nat k) (fl_vals l) nd)).
  - unfold shrunk. destruct (Z.of_nat (List.length numbers) <=? 0); reflexivity.
  - intros k K. unfold numbers in K. apply filter_In in K. destruct K as [K _]. apply zseq_mem in K.
    unfold row_of. cbn [plain raw set_ncells r_is2d r_data]. destruct P as (_ & _ & L). fold g rows cols in L.
    rewrite (nth_error_nth' _ nd) by lia. reflexivity.
Qed.

Definition whole_raster : raster num := set_ncells (raw lyrs) (rows * cols) (rows * cols).

Lemma construct_whole ord : calc = false -> CalcNoMask cells_equal ord (raw lyrs) = Ok (whole_raster, 0).
Proof using Type. intros CT. unfold CalcNoMask. change (r_calc (raw lyrs)) with calc. rewrite CT. reflexivity. Qed.

Definition first_raster : raster num := if calc then shrunk else whole_raster.

Lemma construct read ord file : read file (map (fun kv => (fst kv, of_int (snd kv))) InitialHeader) = Ok (true, h, Some (fl_vals l)) ->
  (calc = true -> schedule (valid_count l nd) ord) ->
  ConstructFromSingleFile read s ord file calc dflt nv lyrs =
  Ok (true, UpdateMap h K_CELLSNUM (of_int (r_ncells first_raster)), Some first_raster).
Proof using P CV LY HH HL HC.
  intros RD SC. unfold ConstructFromSingleFile. cbv zeta. rewrite RD. cbn [obind]. pose proof HH as (HR & HCo & HX & HY & HS & HN).
  unfold at_get at 1. unfold K_NODATA. rewrite HN. cbn [obind]. rewrite CV. cbn [obind negb].
  destruct P as (G & S & L). rewrite (own_geo_of _ _ _ G HH). cbn [obind]. fold g rows cols in G, HC |- *. destruct G as (R & C & M).
  rewrite (imul_ok _ _ R C M). cbn [obind]. unfold at_get. unfold K_CELLSNUM, K_LAYERS. rewrite HC, HL. cbn [obind].
  rewrite f_int_of_int by (unfold in_int, INT_MIN, INT_MAX in *; nia). cbn [obind]. rewrite f_int_of_int by (unfold in_int, INT_MIN, INT_MAX; lia). cbn [obind].
  replace (lyrs <? 0) with false by lia. fold (raw lyrs).
  destruct calc eqn:CT.
  - unfold first_raster. rewrite CT. match goal with |- context [CalcNoMask cells_equal ord ?x] => replace (CalcNoMask cells_equal ord x) with (Ok (shrunk, 1)) end; [reflexivity|].
    symmetry. etransitivity; [|exact (construct_shrunk ord CT (SC eq_refl))]. unfold raw. rewrite CT. reflexivity.
  - unfold first_raster. rewrite CT. match goal with |- context [CalcNoMask cells_equal ord ?x] => replace (CalcNoMask cells_equal ord x) with (Ok (whole_raster, 0)) end; [reflexivity|].
    symmetry. etransitivity; [|exact (construct_whole ord CT)]. unfold raw. rewrite CT. reflexivity.
Qed.
End First.
