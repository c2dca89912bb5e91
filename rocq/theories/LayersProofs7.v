(** Layers read from files: a layer half a cell further left. *)
From Coq Require Import ZArith Reals Lia Lra Ascii String List Bool Permutation Sorted ZifyBool.
From Flocq Require Import Core BinarySingleNaN.
From Verif Require Import Base ListLib StrModel MapModel MapProofs BasicModel FloatModel FloatProofs TypeModel CoordFloatModel CoordFloatSpec CoordFloatProofs
  FsModel RasterModel RasterSpec RasterProofs RasterProofs2 CopyModel AscModel AscSpec AscProofs AscProofs2 CellModel GridfsModel LayersModel LayersSpec LayersProofs LayersProofs2 LayersProofs3 LayersProofs4 LayersProofs5 LayersProofs6.
Import ListNotations.
Open Scope Z_scope.
Open Scope outcome_scope.

Section Shift.
Variables rows cols a b c : Z.
Hypotheses (G : grid_size rows cols) (A : Z.abs a <= 2 ^ 40) (B : Z.abs b <= 2 ^ 40) (C : 0 < c <= 2 ^ 20).
Variables (own h1 : smap f64) (nd : num) (nd1 : f64) (vals : list num).
Hypotheses (OG : own_geo own = Ok (even_grid rows cols b c a)) (H1 : header_of h1 (even_grid rows cols b c (a - c)) nd1)
  (LV : Z.of_nat (List.length vals) = rows * cols).

Definition taken (v : num) : num := if FloatEqual (as_double v) nd1 then nd else v.

Lemma add_shifted i j cell lyr d : 0 <= i < rows -> 0 <= j < cols ->
  AddOtherLayer own nd i j cell lyr h1 (Some vals) d =
  let* v := aget vals (i * cols + (j + 1)) in put d cell lyr (taken v).
Proof using All.
  intros I J. unfold AddOtherLayer. pose proof H1 as (_ & HC & _ & _ & _ & HN). unfold at_get. change K_NCOLS with (str "NCOLS"). change K_NODATA with (str "NODATA_VALUE"). rewrite HC, HN. cbn [obind fg_cols even_grid].
  destruct (even_bounds rows cols G) as [R K]. rewrite f_int_of_int by (unfold in_int, INT_MIN, INT_MAX in *; lia). cbn [obind]. rewrite OG. cbn [obind].
  rewrite (layer_geo_of h1 (even_grid rows cols b c (a - c)) nd1 G H1). cbn [obind]. pose proof (border_position rows cols a b c G A B C i j I J) as BP. cbv zeta in BP. rewrite BP. cbn [obind fst snd].
  replace (i =? -1) with false by lia. replace (j + 1 =? -1) with false by lia. cbn [orb]. rewrite (imul_inside i rows cols G I). reflexivity.
Qed.

Lemma shifted_ok i j cell lyr d n m v0 : 0 <= i < rows -> 0 <= j < cols -> table n m v0 d -> (cell < n)%nat -> (lyr < m)%nat -> lyr <> 0%nat ->
  AddOtherLayer own nd i j (Z.of_nat cell) (Z.of_nat lyr) h1 (Some vals) d = UB \/
  exists d', AddOtherLayer own nd i j (Z.of_nat cell) (Z.of_nat lyr) h1 (Some vals) d = Ok d' /\ table n m v0 d'.
Proof using All.
  intros I J T CN L L0. rewrite (add_shifted i j _ _ d I J). destruct (nth_error vals (Z.to_nat (i * cols + (j + 1)))) as [v|] eqn:E.
  - right. rewrite (aget_ok vals _ v) by (nia || exact E). cbn [obind]. apply (put_total n m v0 d cell lyr _ T CN L L0).
  - left. unfold aget. rewrite E. destruct (_ <? 0); reflexivity.
Qed.

Lemma shifted_last cell lyr d : AddOtherLayer own nd (rows - 1) (cols - 1) cell lyr h1 (Some vals) d = UB.
Proof using All.
  destruct (even_bounds rows cols G) as [R K]. rewrite add_shifted by lia. unfold aget.
  replace ((rows - 1) * cols + (cols - 1 + 1)) with (rows * cols) by ring. rewrite <- LV. rewrite Nat2Z.id.
  rewrite (proj2 (nth_error_None vals (List.length vals)) (le_n _)). destruct (_ <? 0); reflexivity.
Qed.

Lemma positions_ub ks k ord n m v0 d : n = List.length ks -> (k < m)%nat -> k <> 0%nat -> (forall x, In x ks -> 0 <= x < rows * cols) -> In (rows * cols - 1) ks ->
  schedule (Z.of_nat n) ord -> table n m v0 d ->
  ofold (by_position own nd (Some ks) cols (Z.of_nat k) h1 (Some vals)) ord d = UB.
Proof using All.
  intros EN KM K0 KS LAST SC T. destruct (even_bounds rows cols G) as [R K]. unfold schedule in SC. rewrite Nat2Z.id in SC.
  assert (STEP : forall d' i, (i < n)%nat -> by_position own nd (Some ks) cols (Z.of_nat k) h1 (Some vals) d' i =
     AddOtherLayer own nd (Z.quot (nth i ks 0) cols) (Z.rem (nth i ks 0) cols) (Z.of_nat i) (Z.of_nat k) h1 (Some vals) d').
  { intros d' i I. unfold by_position. cbn [deref obind]. rewrite (aget_ok ks _ (nth i ks 0)); [reflexivity|lia|]. rewrite Nat2Z.id. apply nth_error_nth'. lia. }
  apply (loop_fails _ (table n m v0) UB ltac:(reflexivity) ord d T).
  - intros d' i I T'. apply (Permutation_in _ SC) in I. apply in_seq in I. rewrite STEP by lia.
    assert (B0 : 0 <= nth i ks 0 < rows * cols) by (apply KS, nth_In; lia). rewrite Z.quot_div_nonneg, Z.rem_mod_nonneg by lia.
    assert (Q1 : 0 <= nth i ks 0 / cols < rows) by (split; [apply Z.div_pos; lia|apply Z.div_lt_upper_bound; lia]). pose proof (Z.mod_pos_bound (nth i ks 0) cols ltac:(lia)) as Q2.
    apply (shifted_ok _ _ i k d' n m v0 Q1 Q2 T'); lia.
  - destruct (In_nth _ _ 0 LAST) as (i & I & E). exists i. split; [apply (Permutation_in _ (Permutation_sym SC)), in_seq; lia|]. intros d' _. rewrite STEP by lia. rewrite E.
    assert (BB : 0 <= rows * cols - 1) by nia. rewrite Z.quot_div_nonneg, Z.rem_mod_nonneg by lia. replace (rows * cols - 1) with ((cols - 1) + (rows - 1) * cols) by ring.
    rewrite Z.div_add, Z.mod_add, Z.div_small, Z.mod_small by lia. apply shifted_last.
Qed.

Lemma row_ub k n m v0 i d : k <> 0%nat -> (k < m)%nat -> Z.of_nat i < rows -> Z.of_nat n = rows * cols -> table n m v0 d ->
  (by_row own nd cols (Z.of_nat k) h1 (Some vals) d i = UB \/ exists d', by_row own nd cols (Z.of_nat k) h1 (Some vals) d i = Ok d' /\ table n m v0 d') /\
  (Z.of_nat i = rows - 1 -> cells_equal nd (v0 (Z.to_nat (rows * cols - 1))) = false -> by_row own nd cols (Z.of_nat k) h1 (Some vals) d i = UB).
Proof using All.
  intros K0 KM IR EN T. destruct (even_bounds rows cols G) as [R K]. unfold by_row. set (step := fun (d : list (list num)) (j : Z) => _).
  assert (CELL : forall d' j, 0 <= j < cols -> table n m v0 d' -> let c := Z.to_nat (Z.of_nat i * cols + j) in (c < n)%nat /\
     step d' j = if cells_equal nd (v0 c) then put d' (Z.of_nat c) (Z.of_nat k) nd else AddOtherLayer own nd (Z.of_nat i) j (Z.of_nat c) (Z.of_nat k) h1 (Some vals) d').
  { intros d' j J [LN TC]. cbv zeta. set (c0 := Z.to_nat (Z.of_nat i * cols + j)). assert (EC : Z.of_nat i * cols + j = Z.of_nat c0) by (unfold c0; nia). assert (CN : (c0 < n)%nat) by nia.
    split; [exact CN|]. unfold step. rewrite EC. destruct (nth_error d' c0) as [row|] eqn:ER; [|apply nth_error_None in ER; lia]. destruct (TC c0 row ER) as [LR R0].
    rewrite (aget_ok d' _ row) by (rewrite ?Nat2Z.id; auto; lia). cbn [obind]. rewrite (aget_ok row 0 (v0 c0)) by (exact R0 || lia). reflexivity. }
  assert (ST : forall d' j, In j (zseq cols) -> table n m v0 d' -> step d' j = UB \/ exists d'', step d' j = Ok d'' /\ table n m v0 d'').
  { intros d' j J T'. apply zseq_mem in J. destruct (CELL d' j J T') as [CN ->]. destruct (cells_equal nd _).
    - right. apply (put_total n m v0 d' _ k nd T' CN KM K0).
    - apply shifted_ok; auto; lia. }
  split.
  - assert (GG : forall js d', (forall j, In j js -> In j (zseq cols)) -> table n m v0 d' -> ofold step js d' = UB \/ exists d'', ofold step js d' = Ok d'' /\ table n m v0 d'').
    { induction js as [|j js IH]; intros d' JS T'; cbn [ofold]; [right; eauto|]. destruct (ST d' j (JS j (or_introl eq_refl)) T') as [F|(d'' & F & T'')]; rewrite F; [left; reflexivity|].
      cbn [obind]. apply IH; [intros j' J'; apply JS; right; exact J'|exact T'']. }
    apply GG; [auto|exact T].
  - intros EI V. apply (loop_fails step (table n m v0) UB ltac:(reflexivity) (zseq cols) d T ST). exists (cols - 1). split; [apply zseq_mem; lia|].
    intros d' T'. destruct (CELL d' (cols - 1) ltac:(lia) T') as [_ ->]. replace (Z.of_nat i * cols + (cols - 1)) with (rows * cols - 1) by (rewrite EI; ring). rewrite V, EI. apply shifted_last.
Qed.

Lemma rows_ub k ord n m v0 d : k <> 0%nat -> (k < m)%nat -> Z.of_nat n = rows * cols -> schedule rows ord -> table n m v0 d ->
  cells_equal nd (v0 (Z.to_nat (rows * cols - 1))) = false ->
  ofold (by_row own nd cols (Z.of_nat k) h1 (Some vals)) ord d = UB.
Proof using All.
  intros K0 KM EN SC T V. destruct (even_bounds rows cols G) as [R K]. unfold schedule in SC.
  apply (loop_fails _ (table n m v0) UB ltac:(reflexivity) ord d T).
  - intros d' i I T'. apply (Permutation_in _ SC) in I. apply in_seq in I. apply row_ub; auto; lia.
  - exists (Z.to_nat (rows - 1)). split; [apply (Permutation_in _ (Permutation_sym SC)), in_seq; lia|]. intros d' T'.
    refine (proj2 (row_ub k n m v0 _ d' K0 KM _ EN T') _ V); lia.
Qed.
End Shift.

Theorem shifted_left o exist read s order1 orders file other rest rows cols a b c nd0 nd1 vals0 vals1 calc dflt nv nd v :
  FilesExist exist (file :: other :: rest) = true ->
  grid_size rows cols -> Z.abs a <= 2 ^ 40 -> Z.abs b <= 2 ^ 40 -> 0 < c <= 2 ^ 20 ->
  Z.of_nat (List.length vals0) = rows * cols -> Z.of_nat (List.length vals1) = rows * cols ->
  let l0 := mkFlayer (mkFgeo rows cols (of_int a) (of_int b) (of_int (2 * c))) nd0 vals0 in
  let l1 := mkFlayer (mkFgeo rows cols (of_int (a - c)) (of_int b) (of_int (2 * c))) nd1 vals1 in
  gives (read file (map (fun kv => (fst kv, of_int (snd kv))) InitialHeader)) l0 -> cvt s (VD nd0) = Ok nd -> gives (read other []) l1 ->
  any_order l0 nd calc order1 orders -> file_value l0 (rows - 1) (cols - 1) v -> cells_equal v nd = false ->
  ReadFromFiles o exist read s order1 orders (file :: other :: rest) calc dflt nv = UB.
Proof.
  intros EX G A B C L0 L1 l0 l1 G0 CV G1 OR FV V.
  assert (NE : other :: rest <> []) by discriminate.
  assert (P0 : proper l0). { split; [exact G|]. split; [|exact L0]. apply (even_sane rows cols a b c G A B C a). lia. }
  destruct (read_start o exist read s order1 orders file (other :: rest) [] l0 [] calc dflt nv nd EX NE G0 P0 CV (Forall2_nil _) (Forall_nil _) OR ltac:(intros ? ? ? _ _ l [])) as (h & d1 & _ & OG & T1 & E).
  cbv zeta in E. rewrite E. clear E. destruct G1 as (h1 & R1 & H1 & _).
  set (m := List.length (file :: other :: rest)) in *. set (n := List.length (stored_values l0 calc nd)) in *.
  set (R := first_raster l0 nd calc dflt nv (Z.of_nat m)) in *.
  unfold add_layers.
  assert (TH : ofold (files_step read h (fg_cols (fl_geo l0)) R orders) (other :: rest) (1%nat, d1) = UB).
  { cbn [ofold]. unfold files_step at 1. cbn [fst snd]. rewrite R1. cbn [obind].
    replace (layer_step h (fg_cols (fl_geo l0)) R orders 1 h1 (Some (fl_vals l1)) d1) with (@UB (list (list num))); [reflexivity|]. symmetry.
    destruct (R_fields file (other :: rest) l0 calc dflt nv nd P0) as (_ & _ & _ & EN & _ & _ & EP & EI & _).
    unfold layer_step. fold m in EN, EP, EI. fold R in EN, EP, EI. rewrite EN, EP, EI. clear EN EP EI.
    destruct (number_of l0 nd P0 _ _ _ FV) as (NU & BN & _ & _ & EV). cbn [l0 fl_geo fg_cols fg_rows] in NU, BN, EV. apply proj2 in NU. specialize (NU V).
    replace ((rows - 1) * cols + (cols - 1)) with (rows * cols - 1) in NU, EV by ring.
    unfold any_order in OR. destruct calc.
    - cbn [isnull negb orb]. destruct (numbers l0 nd) as [|k0 t] eqn:EK; [destruct NU|]. rewrite <- EK in *.
      replace (Z.of_nat (List.length (numbers l0 nd)) <=? 0) with false by (rewrite EK; cbn [List.length]; lia).
      apply (positions_ub rows cols a b c G A B C h h1 nd nd1 vals1 OG H1 L1 (numbers l0 nd) 1 (orders 1%nat) n m (fun i => nth i (stored_values l0 true nd) nd)); auto; try lia.
      + unfold n, stored_values. apply map_length.
      + unfold m; cbn [List.length]; lia.
      + intros x X. unfold numbers in X. apply filter_In, proj1, zseq_mem in X. exact X.
      + unfold n, stored_values. rewrite map_length. rewrite (numbers_count l0 nd P0). apply OR.
    - cbn [isnull negb orb]. apply (rows_ub rows cols a b c G A B C h h1 nd nd1 vals1 OG H1 L1 1 (orders 1%nat) n m (fun i => nth i (stored_values l0 false nd) nd)); auto; try lia.
      + unfold m; cbn [List.length]; lia.
      + apply OR.
      + unfold stored_values. cbn [l0 fl_vals] in EV |- *. rewrite EV, cells_equal_sym. exact V. }
  etransitivity; [exact (f_equal (fun x => obind (obind x _) _) TH)|reflexivity].
Qed.
