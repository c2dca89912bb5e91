(** Layers read from files: the whole call. *)
From Coq Require Import ZArith Reals Lia Lra Ascii String List Bool Permutation Sorted ZifyBool.
From Flocq Require Import Core BinarySingleNaN.
From Verif Require Import Base ListLib StrModel MapModel MapProofs BasicModel FloatModel FloatProofs TypeModel CoordFloatModel CoordFloatSpec CoordFloatProofs
  FsModel RasterModel RasterSpec RasterProofs RasterProofs2 CopyModel AscModel AscSpec AscProofs AscProofs2 CellModel GridfsModel LayersModel LayersSpec LayersProofs LayersProofs2 LayersProofs3.
Import ListNotations.
Open Scope Z_scope.
Open Scope outcome_scope.

Lemma header_update h g nd k v : header_of h g nd -> k = K_CELLSNUM \/ k = K_LAYERS -> header_of (UpdateMap h k v) g nd.
Proof.
  intros (R & C & X & Y & S & N) K. unfold header_of. rewrite !lookup_UpdateMap.
  destruct K as [->| ->]; repeat match goal with |- context [beqb ?a ?b] => change (beqb a b) with false end; cbn iota; auto 10.
Qed.

Lemma Forall2_also {A B} (P : A -> B -> Prop) (Q : B -> Prop) l1 l2 : Forall2 P l1 l2 -> (forall b, In b l2 -> Q b) -> Forall2 (fun a b => P a b /\ Q b) l1 l2.
Proof.
  induction 1 as [|a b l1 l2 H F IH]; intros I; constructor; [split; [exact H|apply I; left; reflexivity]|]. apply IH. intros x X. apply I. right. exact X.
Qed.

Lemma Forall2_count {A B} (P : A -> B -> Prop) l1 l2 : Forall2 P l1 l2 -> List.length l1 = List.length l2.
Proof. induction 1; cbn [List.length]; congruence. Qed.

Lemma read_files_eq o exist read s order1 orders file others calc dflt nv : others <> [] -> FilesExist exist (file :: others) = true ->
  ReadFromFiles o exist read s order1 orders (file :: others) calc dflt nv =
  let lyrs := Z.of_nat (List.length (file :: others)) in
        let* c := ConstructFromSingleFile read s order1 file calc dflt nv lyrs in
        match c with
        | (true, h, Some r) =>
            let core := cut_core (GetCoreFileName o file) in
            let path := GetPathFromFullName o file ++ core ++ str "_%d." ++ GetSuffix o file in
            let* d := deref (init2d None (r_ncells r) (repeat (r_nodata r) (Z.to_nat lyrs))) in
            let* d1 := ofold (fun d i => let* vs := deref (r_data r) in let* v := aget vs (Z.of_nat i) in put d (Z.of_nat i) 0 v)
                         (orders 0%nat) d in
            let* g := own_geo h in
            let* d2 := add_layers read orders h r (fg_rows g) (fg_cols g) others d1 in
            let r2 := mkRaster (r_rows r) (r_cols r) (r_xll r) (r_yll r) (r_cs r) (r_hnodata r) (r_hcells r) lyrs
                        (r_ncells r) (r_nlyrs r) (r_nodata r) (r_default r) true None (Some d2)
                        (r_pos r) (r_posidx r) (r_calc r) (r_store r) (r_maskext r) (r_init r) in
            Ok (true, Some (mkLayered (UpdateMap h K_LAYERS (of_int lyrs)) r2 core path))
        | _ => Ok (false, None)
        end.
Proof. intros N E. unfold ReadFromFiles. rewrite E. destruct others; [contradiction|reflexivity]. Qed.

Section Call.
Variables (o : os) (exist : bytes -> bool) (read : bytes -> smap f64 -> outcome layer_read) (s : rdt).
Variables (order1 : list nat) (orders : nat -> list nat) (file : bytes) (others good : list bytes) (l0 : flayer) (ls : list flayer)
  (calc : bool) (dflt nv nd : num).
Hypotheses (EX : FilesExist exist (file :: others) = true) (NE : others <> [])
  (G0 : gives (read file (map (fun kv => (fst kv, of_int (snd kv))) InitialHeader)) l0) (P0 : proper l0)
  (CV : cvt s (VD (fl_nodata l0)) = Ok nd)
  (GS : Forall2 (fun f l => gives (read f []) l) good ls) (PS : Forall proper ls)
  (OR : any_order l0 nd calc order1 orders)
  (SE : forall i j v, file_value l0 i j v -> cells_equal v nd = false -> forall l, In l ls ->
          let xy := fCoordinate (fl_geo l0) i j in exists w, seen l nd (fst xy) (snd xy) w).
Let g := fl_geo l0.
Let rows := fg_rows g.
Let cols := fg_cols g.
Let m := List.length (file :: others).
Let lyrs := Z.of_nat m.
Let ks := numbers l0 nd.

(** The cells stored: their numbers and the values of the first layer. *)
Definition stored_numbers : list Z := if calc then ks else zseq (rows * cols).
Definition stored_values : list num := if calc then map (fun k => nth (Z.to_nat k) (fl_vals l0) nd) ks else fl_vals l0.

Lemma grid0 : 0 < rows /\ 0 < cols /\ rows * cols <= INT_MAX.
Proof using P0. exact (proj1 P0). Qed.

Lemma vals0 : Z.of_nat (List.length (fl_vals l0)) = rows * cols.
Proof using P0. exact (proj2 (proj2 P0)). Qed.

Lemma stored_length : List.length stored_values = List.length stored_numbers.
Proof using P0. pose proof vals0 as V0. clear - P0 V0.
  unfold stored_values, stored_numbers. destruct calc; [apply map_length|]. unfold zseq. rewrite map_length, seq_length. lia.
Qed.

Lemma stored_number i : (i < List.length stored_numbers)%nat -> 0 <= nth i stored_numbers 0 < rows * cols /\
  nth i stored_values nd = nth (Z.to_nat (nth i stored_numbers 0)) (fl_vals l0) nd.
Proof using P0. clear - P0.
  unfold stored_values, stored_numbers. destruct calc; intros I.
  - split.
    + assert (X : In (nth i ks 0) ks) by (apply nth_In; exact I). revert X. generalize (nth i ks 0). intros z X. apply filter_In in X. destruct X as [X _]. apply zseq_mem in X. exact X.
    + rewrite (nth_indep _ nd (nth (Z.to_nat 0) (fl_vals l0) nd)) by (rewrite map_length; exact I).
      exact (map_nth (fun k => nth (Z.to_nat k) (fl_vals l0) nd) ks 0 i).
  - unfold zseq in *. rewrite map_length, seq_length in I. replace (nth i (map Z.of_nat (seq 0 (Z.to_nat (rows * cols)))) 0) with (Z.of_nat (nth i (seq 0 (Z.to_nat (rows * cols))) 0%nat)) by (symmetry; exact (map_nth Z.of_nat (seq 0 (Z.to_nat (rows * cols))) 0%nat i)). rewrite seq_nth by exact I. cbn [Nat.add].
    rewrite Nat2Z.id. split; [lia|reflexivity].
Qed.

Lemma cell_number k : 0 <= k < rows * cols -> 0 <= k / cols < rows /\ 0 <= k mod cols < cols /\ k / cols * cols + k mod cols = k.
Proof using P0. clear - P0.
  intros K. destruct grid0 as (R & C & _). pose proof (Z.div_mod k cols ltac:(lia)). pose proof (Z.mod_pos_bound k cols C).
  repeat split; try lia; [apply Z.div_pos; lia|apply Z.div_lt_upper_bound; lia].
Qed.

Lemma seen_number k l : 0 <= k < rows * cols -> In l ls -> cells_equal (nth (Z.to_nat k) (fl_vals l0) nd) nd = false -> seen_at g nd l k.
Proof using P0 SE. clear - P0 SE.
  intros K L V. destruct (cell_number k K) as (A & B & C). apply (SE (k / cols) (k mod cols) (nth (Z.to_nat k) (fl_vals l0) nd)); [|exact V|exact L].
  split; [exact A|]. split; [exact B|]. fold g cols. rewrite C. apply nth_error_nth'. pose proof vals0. lia.
Qed.

(** What a further layer gives to a stored cell. *)
Definition given (l : flayer) (i : nat) : num :=
  if calc then value_at g nd l (nth i ks 0) else row_value g nd l (fun i => nth i stored_values nd) i.

Lemma orders_stored : schedule (Z.of_nat (List.length stored_values)) (orders 0%nat).
Proof using OR P0. pose proof stored_length as SL. pose proof (numbers_count l0 nd P0) as NC. pose proof grid0 as GG. clear - OR P0 SL NC GG.
  rewrite SL. unfold stored_numbers, any_order in *. destruct calc.
  - fold ks in NC. rewrite NC. apply OR.
  - unfold zseq. rewrite map_length, seq_length. rewrite Z2Nat.id by nia. apply OR.
Qed.

Let R := first_raster l0 nd calc dflt nv lyrs.

Lemma R_fields : r_rows R = rows /\ r_cols R = cols /\ r_nlyrs R = lyrs /\ r_nodata R = nd /\ r_ncells R = Z.of_nat (List.length stored_values) /\ r_calc R = calc /\
  r_pos R = (if calc then Some (map (fun k => (k / cols, k mod cols)) ks) else None) /\
  r_posidx R = (if calc then if Z.of_nat (List.length ks) <=? 0 then None else Some ks else None) /\
  (stored_values <> [] -> r_data R = Some stored_values).
Proof using P0. pose proof vals0 as V. clear - P0 V.
  unfold R, first_raster, stored_values. destruct calc; cbn [shrunk whole_raster raw set_ncells r_rows r_cols r_nlyrs r_nodata r_ncells r_calc r_pos r_posidx r_data].
  - rewrite map_length. fold ks. repeat (split; [reflexivity|]). intros N. destruct ks as [|k t]; [exfalso; apply N; reflexivity|]. reflexivity.
  - fold g rows cols. repeat (split; [reflexivity || exact (eq_sym V)|]). reflexivity.
Qed.

Lemma handled_one own l : own_geo own = Ok g -> In l ls ->
  handled own cols R orders (List.length stored_values) m (fun i => nth i stored_values nd) given l.
Proof using All.
  intros OG IL k h d H K KM T. destruct grid0 as (R0 & C0 & M0). rewrite Forall_forall in PS. pose proof (PS l IL) as PL.
  destruct R_fields as (_ & _ & _ & EN & _ & _ & EP & EI & _). unfold layer_step. rewrite EN, EP, EI. clear EN EP EI.
  unfold any_order in OR. unfold given. pose proof stored_length as SL. pose proof stored_number as SN.
  unfold stored_values, stored_numbers in *. destruct calc.
  - cbn [isnull negb orb]. rewrite SL in *. destruct OR as [_ OK]. rewrite <- (numbers_count l0 nd P0) in OK. fold ks in OK.
    destruct ks as [|k0 t] eqn:EK.
    + exists d. specialize (OK k). unfold schedule in OK. cbn in OK. apply Permutation_sym, Permutation_nil in OK. rewrite OK. split; [reflexivity|].
      apply wrote_none. intros i I. destruct T as [LT _]. cbn in LT. lia.
    + rewrite <- EK in *. replace (Z.of_nat (List.length ks) <=? 0) with false by (rewrite EK; cbn [List.length]; lia).
      refine (positions_loop own g nd l h OG PL H m k _ K KM ks (orders k) d C0 (OK k) T _).
      intros c IC. unfold ks, numbers in IC. apply filter_In in IC. destruct IC as [IC NV]. apply zseq_mem in IC. split; [lia|].
      apply seen_number; [exact IC|exact IL|]. apply negb_true_iff in NV. exact NV.
  - cbn [isnull negb orb]. destruct OR as [_ OK]. destruct k as [|k]; [contradiction|].
    refine (rows_loop own g nd l h OG PL H m (S k) (fun i => nth i (fl_vals l0) nd) K KM _ (orders (S k)) d _ R0 C0 (OK k) T _).
    + pose proof vals0. fold rows cols. lia.
    + intros c CN CE. apply seen_number; [pose proof vals0; lia|exact IL|]. rewrite Nat2Z.id. rewrite cells_equal_sym. exact CE.
Qed.

(** The object. *)
Definition result_raster (d2 : list (list num)) : raster num :=
  mkRaster (r_rows R) (r_cols R) (r_xll R) (r_yll R) (r_cs R) (r_hnodata R) (r_hcells R) lyrs
    (r_ncells R) (r_nlyrs R) (r_nodata R) (r_default R) true None (Some d2)
    (r_pos R) (r_posidx R) (r_calc R) (r_store R) (r_maskext R) (r_init R).

Lemma read_start : exists h d1, header_of h g (fl_nodata l0) /\ own_geo h = Ok g /\
  table (List.length stored_values) m (fun i => nth i stored_values nd) d1 /\
  ReadFromFiles o exist read s order1 orders (file :: others) calc dflt nv =
  let* d2 := add_layers read orders h R rows cols others d1 in
  Ok (true, Some (mkLayered (UpdateMap h K_LAYERS (of_int lyrs)) (result_raster d2) (cut_core (GetCoreFileName o file))
       (GetPathFromFullName o file ++ cut_core (GetCoreFileName o file) ++ str "_%d." ++ GetSuffix o file))).
Proof using All.
  destruct G0 as (h & RD & HH & HLY & HC).
  set (h1 := UpdateMap h K_CELLSNUM (of_int (r_ncells R))).
  assert (H1 : header_of h1 g (fl_nodata l0)) by (apply header_update; [exact HH|left; reflexivity]).
  assert (M2 : (1 < m)%nat) by (unfold m; destruct others; [contradiction|cbn [List.length]; lia]).
  assert (CON : ConstructFromSingleFile read s order1 file calc dflt nv lyrs = Ok (true, h1, Some R)).
  { refine (construct s l0 nd h calc dflt nv lyrs P0 CV ltac:(unfold lyrs; lia) HH HLY HC read order1 file RD _). intros CT. unfold any_order in OR. rewrite CT in OR. apply OR. }
  assert (OG : own_geo h1 = Ok g) by (eapply own_geo_of; [exact (proj1 P0)|exact H1]).
  pose proof R_fields as (FR & FC & FL & FN & FNC & FCA & FP & FI & FD).
  assert (B : exists d1, ofold (fun d i => let* vs := deref (r_data R) in let* v := aget vs (Z.of_nat i) in put d (Z.of_nat i) 0 v) (orders 0%nat)
      (repeat (repeat nd m) (List.length stored_values)) = Ok d1 /\ table (List.length stored_values) m (fun i => nth i stored_values nd) d1).
  { pose proof orders_stored as OS. destruct stored_values as [|v t] eqn:EV.
    - unfold schedule in OS. cbn in OS. apply Permutation_sym, Permutation_nil in OS. rewrite OS. exists []. split; [reflexivity|]. split; [reflexivity|]. intros i c E. destruct i; discriminate.
    - rewrite <- EV in *. rewrite FD by (rewrite EV; discriminate). apply first_loop; [lia|exact OS]. }
  destruct B as (d1 & E1 & T1). exists h1, d1. split; [exact H1|]. split; [exact OG|]. split; [exact T1|].
  rewrite (read_files_eq o exist read s order1 orders file others calc dflt nv NE EX). cbv zeta. fold m. fold lyrs. rewrite CON. cbn [obind]. rewrite FN, FNC.
  unfold init2d. replace (Z.of_nat (List.length stored_values) <? 0) with false by lia. cbn [deref obind]. rewrite Nat2Z.id. unfold lyrs at 1. rewrite Nat2Z.id.
  rewrite E1. cbn [obind]. rewrite OG. cbn [obind]. fold rows cols. unfold result_raster. rewrite <- FN, <- FNC. reflexivity.
Qed.

Lemma all_handled h : own_geo h = Ok g ->
  Forall2 (fun f l => gives (read f []) l /\ handled h cols R orders (List.length stored_values) m (fun i => nth i stored_values nd) given l) good ls.
Proof using All.
  intros OG. assert (HA : forall l, In l ls -> handled h cols R orders (List.length stored_values) m (fun i => nth i stored_values nd) given l) by (intros l IL; apply handled_one; assumption).
  exact (Forall2_also _ _ _ _ GS HA).
Qed.

Theorem read_files : good = others -> exists h d2, header_of h g (fl_nodata l0) /\
  ReadFromFiles o exist read s order1 orders (file :: others) calc dflt nv =
  Ok (true, Some (mkLayered (UpdateMap h K_LAYERS (of_int lyrs)) (result_raster d2) (cut_core (GetCoreFileName o file))
       (GetPathFromFullName o file ++ cut_core (GetCoreFileName o file) ++ str "_%d." ++ GetSuffix o file))) /\
  table (List.length stored_values) m (fun i => nth i stored_values nd) d2 /\
  forall i c, nth_error d2 i = Some c -> forall j l, nth_error ls j = Some l -> nth_error c (1 + j) = Some (given l i).
Proof using All.
  intros EG. destruct read_start as (h & d1 & H1 & OG & T1 & E). pose proof (all_handled h OG) as FH. rewrite EG in FH.
  destruct (add_layers_ok read h cols R orders _ m _ given rows others ls d1 FH ltac:(unfold m; cbn [List.length]; lia) T1) as (d2 & E2 & T2 & A2).
  exists h, d2. split; [exact H1|]. split; [|split; [exact T2|exact A2]]. rewrite E, E2. reflexivity.
Qed.

Lemma result_shape d2 : table (List.length stored_values) m (fun i => nth i stored_values nd) d2 ->
  (calc = false /\ full_grid (result_raster d2)) \/ (calc = true /\ ks <> [] /\ compact (result_raster d2) ks) \/ (calc = true /\ ks = [] /\ emptied (result_raster d2)).
Proof using All.
  intros [LT TC]. destruct R_fields as (FR & FC & FL & FN & FNC & FCA & FP & FI & FD). destruct grid0 as (R0 & C0 & M0).
  assert (M1 : 1 <= lyrs) by (unfold lyrs, m; cbn [List.length]; lia).
  assert (ST : storage (result_raster d2) (r_ncells R)).
  { unfold storage, result_raster. cbn [r_is2d r_data2d r_nlyrs]. exists d2. split; [reflexivity|]. split; [rewrite LT, FNC; reflexivity|].
    apply Forall_forall. intros c IC. apply In_nth_error in IC. destruct IC as (i & E). rewrite FL. unfold lyrs. f_equal. exact (proj1 (TC i c E)). }
  unfold full_grid, compact, emptied. cbn [result_raster r_rows r_cols r_nlyrs r_ncells r_calc r_pos r_posidx r_is2d r_data2d]. fold (result_raster d2). rewrite FR, FC, FL, FP, FI, FCA.
  pose proof stored_length as SL. unfold stored_numbers in SL. destruct (Bool.bool_dec calc true) as [CT|CT]; [|apply Bool.not_true_is_false in CT]; rewrite CT in SL |- *.
  - right. destruct ks as [|k t] eqn:EK.
    + right. split; [reflexivity|]. split; [reflexivity|]. repeat (split; [assumption|]). split; [rewrite FNC, SL; reflexivity|]. repeat (split; [reflexivity|]).
      destruct d2; [reflexivity|]. rewrite SL in LT. discriminate.
    + left. split; [reflexivity|]. split; [discriminate|]. rewrite <- EK in *. replace (Z.of_nat (List.length ks) <=? 0) with false by (rewrite EK; cbn [List.length]; lia).
      repeat (split; [assumption|]). split; [rewrite FNC, SL, EK; cbn [List.length]; lia|]. split; [rewrite FNC, SL; reflexivity|]. split; [exact ST|].
      repeat (split; [reflexivity|]). split.
      * unfold ks, numbers. apply StronglySorted_filter, StronglySorted_zseq.
      * apply Forall_forall. intros x IX. unfold ks, numbers in IX. apply filter_In in IX. apply zseq_mem. apply IX.
  - left. split; [reflexivity|]. assert (EN : r_ncells R = rows * cols). { rewrite FNC, SL. unfold zseq. rewrite map_length, seq_length. lia. }
    rewrite EN in ST. repeat (split; [assumption|]). split; reflexivity.
Qed.

Lemma number_of i j v : file_value l0 i j v -> (In (i * cols + j) ks <-> cells_equal v nd = false) /\ 0 <= i * cols + j < rows * cols /\
  (i * cols + j) / cols = i /\ (i * cols + j) mod cols = j /\ nth (Z.to_nat (i * cols + j)) (fl_vals l0) nd = v.
Proof using P0.
  clear - P0. intros (I & J & E). fold g rows cols in I, J, E. assert (B : 0 <= i * cols + j < rows * cols) by nia.
  pose proof (nth_error_nth _ _ nd E) as EN.
  split; [|split; [exact B|split; [|split; [|exact EN]]]].
  - unfold ks, numbers. rewrite filter_In, zseq_mem. fold g rows cols. rewrite EN, negb_true_iff. tauto.
  - symmetry. apply Z.div_unique with j; lia.
  - symmetry. apply Z.mod_unique with i; lia.
Qed.

Lemma value_seen i j v l w : file_value l0 i j v -> In l ls ->
  seen l nd (fst (fCoordinate g i j)) (snd (fCoordinate g i j)) w -> value_at g nd l (i * cols + j) = w.
Proof using P0 PS.
  intros FV IL S. destruct (number_of i j v FV) as (_ & _ & D & M & _). unfold value_at. fold cols. rewrite D, M.
  apply seen_value; [|exact S]. rewrite Forall_forall in PS. apply PS. exact IL.
Qed.

Lemma layer_count : good = others -> List.length ls = List.length others.
Proof using GS. intros EG. rewrite <- EG. symmetry. exact (Forall2_count _ _ _ GS). Qed.

Theorem result_values d2 : good = others -> table (List.length stored_values) m (fun i => nth i stored_values nd) d2 ->
  (forall i c, nth_error d2 i = Some c -> forall j l, nth_error ls j = Some l -> nth_error c (1 + j) = Some (given l i)) ->
  forall i j v, file_value l0 i j v ->
  (cells_equal v nd = false -> GetValue (result_raster d2) i j 1 = Ok v /\
     forall n l w, nth_error ls n = Some l -> seen l nd (fst (fCoordinate g i j)) (snd (fCoordinate g i j)) w ->
       GetValue (result_raster d2) i j (Z.of_nat n + 2) = Ok w) /\
  (cells_equal v nd = true -> (exists w, GetValue (result_raster d2) i j 1 = Ok w /\ (w = v \/ w = nd)) /\
     forall lyr, 2 <= lyr <= lyrs -> GetValue (result_raster d2) i j lyr = Ok nd).
Proof using All.
  intros EG T A i j v FV. pose proof (result_shape d2 T) as SH. destruct (number_of i j v FV) as (NU & B & ED & EM & EV).
  destruct R_fields as (FR & FC & FL & FN & FNC & FCA & FP & FI & FD). pose proof stored_length as SL. pose proof stored_number as SN. pose proof (layer_count EG) as LC.
  assert (INS : inside (result_raster d2) i j). { unfold inside. cbn [result_raster r_rows r_cols]. rewrite FR, FC. destruct FV as (I & J & _). split; assumption. }
  assert (LYR : forall lyr, 1 <= lyr <= lyrs -> layer_ok (result_raster d2) lyr). { intros lyr Y. unfold layer_ok. cbn [result_raster r_nlyrs]. rewrite FL. exact Y. }
  assert (ML : lyrs = Z.of_nat (List.length ls) + 1). { unfold lyrs, m. cbn [List.length]. lia. }
  assert (CO : r_cols (result_raster d2) = cols) by (cbn [result_raster r_cols]; exact FC).
  assert (ND : r_nodata (result_raster d2) = nd) by (cbn [result_raster r_nodata]; exact FN).
  (* a stored cell *)
  assert (ROW : forall c, (c < List.length stored_values)%nat -> exists row, nth_error d2 c = Some row /\
      read_cell (result_raster d2) (Z.of_nat c) 1 = Ok (nth c stored_values nd) /\
      forall n l, nth_error ls n = Some l -> read_cell (result_raster d2) (Z.of_nat c) (Z.of_nat n + 2) = Ok (given l c)).
  { intros c CN. destruct T as [LT TC]. destruct (nth_error d2 c) as [row|] eqn:ER; [|apply nth_error_None in ER; lia]. exists row. split; [reflexivity|].
    unfold read_cell. cbn [result_raster r_is2d r_data2d deref obind]. rewrite (aget_ok d2 _ row) by (rewrite ?Nat2Z.id; auto; lia). cbn [obind]. split.
    - apply aget_ok; [lia|]. exact (proj2 (TC c row ER)).
    - intros n l EL. apply aget_ok; [lia|]. replace (Z.to_nat (Z.of_nat n + 2 - 1)) with (1 + n)%nat by lia. exact (A c row ER n l EL). }
  assert (PICK : forall lyr, 2 <= lyr <= lyrs -> exists l, nth_error ls (Z.to_nat (lyr - 2)) = Some l /\ Z.of_nat (Z.to_nat (lyr - 2)) + 2 = lyr).
  { intros lyr Y. destruct (nth_error ls (Z.to_nat (lyr - 2))) as [l|] eqn:E; [|apply nth_error_None in E; lia]. exists l. split; [reflexivity|lia]. }
  destruct SH as [(CT & F)|[(CT & NK & C)|(CT & NK & EM')]].
  - (* all cells *)
    unfold stored_numbers in SL, SN. rewrite CT in SL, SN. assert (LN : List.length stored_values = Z.to_nat (rows * cols)) by (rewrite SL; unfold zseq; rewrite map_length, seq_length; reflexivity).
    set (c := Z.to_nat (i * cols + j)) in *. assert (CC : Z.of_nat c = i * cols + j) by (unfold c; lia).
    destruct (ROW c ltac:(lia)) as (row & ER & R1 & RL).
    assert (V0 : nth c stored_values nd = v). { unfold stored_values. rewrite CT. exact EV. }
    assert (GVn : forall n l, nth_error ls n = Some l -> GetValue (result_raster d2) i j (Z.of_nat n + 2) = Ok (given l c)).
    { intros n l EL. assert (n < List.length ls)%nat by (apply nth_error_Some; congruence). rewrite (GetValue_full _ _ _ _ F INS) by (apply LYR; lia). rewrite CO, <- CC. exact (RL n l EL). }
    assert (GV1 : GetValue (result_raster d2) i j 1 = Ok v). { rewrite (GetValue_full _ _ _ _ F INS) by (apply LYR; lia). rewrite CO, <- CC, R1, V0. reflexivity. }
    split; intros CE.
    + split; [exact GV1|]. intros n l w EL S. rewrite (GVn n l EL). f_equal. unfold given. rewrite CT. unfold row_value. rewrite V0, cells_equal_sym, CE, CC.
      exact (value_seen i j v l w FV (nth_error_In _ _ EL) S).
    + split; [exists v; split; [exact GV1|left; reflexivity]|]. intros lyr Y. destruct (PICK lyr Y) as (l & EL & EQ). rewrite <- EQ, (GVn _ l EL). f_equal.
      unfold given. rewrite CT. unfold row_value. rewrite V0, cells_equal_sym, CE. reflexivity.
  - (* valid cells *)
    unfold stored_numbers in SL, SN. rewrite CT in SL, SN.
    assert (FOUND : forall lyr, 1 <= lyr <= lyrs -> (exists c, (c < List.length stored_values)%nat /\ nth c ks 0 = i * cols + j /\ In (i * cols + j) ks /\
        GetValue (result_raster d2) i j lyr = read_cell (result_raster d2) (Z.of_nat c) lyr) \/ ~ In (i * cols + j) ks /\ GetValue (result_raster d2) i j lyr = Ok nd).
    { intros lyr Y. destruct (GetValue_compact _ ks i j lyr C INS (LYR lyr Y)) as [(p & _ & PB & EP & GV)|(_ & NI & GV)]; rewrite CO in *.
      - left. cbn [result_raster r_ncells] in PB. rewrite FNC in PB. exists (Z.to_nat p). split; [lia|]. split; [exact (nth_error_nth _ _ 0 EP)|]. split; [exact (nth_error_In _ _ EP)|].
        rewrite Z2Nat.id by lia. exact GV.
      - right. split; [exact NI|]. rewrite GV, ND. reflexivity. }
    split; intros CE.
    + split.
      * destruct (FOUND 1 ltac:(lia)) as [(c & CN & EK & _ & GV)|(NI & _)]; [|exfalso; apply NI, NU, CE].
        destruct (ROW c CN) as (row & ER & R1 & _). rewrite GV, R1. f_equal. rewrite SL in CN. rewrite (proj2 (SN c CN)), EK. exact EV.
      * intros n l w EL S. assert (n < List.length ls)%nat by (apply nth_error_Some; congruence).
        destruct (FOUND (Z.of_nat n + 2) ltac:(lia)) as [(c & CN & EK & _ & GV)|(NI & _)]; [|exfalso; apply NI, NU, CE].
        destruct (ROW c CN) as (row & ER & _ & RL). rewrite GV, (RL n l EL). f_equal. unfold given. rewrite CT, EK.
        exact (value_seen i j v l w FV (nth_error_In _ _ EL) S).
    + assert (NI : ~ In (i * cols + j) ks) by (rewrite NU, CE; discriminate). split.
      * destruct (FOUND 1 ltac:(lia)) as [(c & _ & _ & X & _)|(_ & GV)]; [contradiction|]. exists nd. split; [exact GV|right; reflexivity].
      * intros lyr Y. destruct (FOUND lyr ltac:(lia)) as [(c & _ & _ & X & _)|(_ & GV)]; [contradiction|exact GV].
  - (* none *)
    assert (NI : cells_equal v nd = true). { destruct (cells_equal v nd) eqn:E; [reflexivity|]. rewrite NK in NU. destruct (proj2 NU eq_refl). }
    split; intros CE; [congruence|]. split.
    + exists nd. rewrite (GetValue_emptied _ i j 1 EM'), ND. split; [reflexivity|right; reflexivity].
    + intros lyr Y. rewrite (GetValue_emptied _ i j lyr EM'), ND. reflexivity.
Qed.

Lemma result_wf d2 : table (List.length stored_values) m (fun i => nth i stored_values nd) d2 -> wf (result_raster d2).
Proof using All.
  intros T. destruct (result_shape d2 T) as [(_ & F)|[(_ & _ & C)|(_ & _ & E)]]; [left; exact F|right; left; exists ks; exact C|right; right; exact E].
Qed.
End Call.
