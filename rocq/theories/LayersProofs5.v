(** Layers read from files: failures. *)
From Coq Require Import ZArith Reals Lia Lra Ascii String List Bool Permutation Sorted ZifyBool.
From Flocq Require Import Core BinarySingleNaN.
From Verif Require Import Base ListLib StrModel MapModel MapProofs BasicModel FloatModel FloatProofs TypeModel CoordFloatModel CoordFloatSpec CoordFloatProofs
  FsModel RasterModel RasterSpec RasterProofs RasterProofs2 CopyModel AscModel AscSpec AscProofs AscProofs2 CellModel GridfsModel LayersModel LayersSpec LayersProofs LayersProofs2 LayersProofs3 LayersProofs4.
Import ListNotations.
Open Scope Z_scope.
Open Scope outcome_scope.

(** A loop some iteration of which fails, the others being fine. *)
Lemma loop_fails {A B} (step : A -> B -> outcome A) (inv : A -> Prop) (bad : outcome A) : (forall k : A -> outcome A, obind bad k = bad) ->
  forall ord a, inv a -> (forall a i, In i ord -> inv a -> step a i = bad \/ exists a', step a i = Ok a' /\ inv a') ->
  (exists i, In i ord /\ forall a, inv a -> step a i = bad) -> ofold step ord a = bad.
Proof.
  intros HB. induction ord as [|i ord IH]; intros a I ST (x & X & E); [destruct X|]. cbn [ofold].
  destruct (ST a i (or_introl eq_refl) I) as [F|(a' & F & I')]; [rewrite F; apply HB|]. rewrite F. cbn [obind]. destruct X as [->|X].
  - exfalso. specialize (E a I). rewrite F in E. specialize (HB (fun _ => UB)). rewrite <- E in HB. discriminate.
  - apply IH; [exact I'| |exists x; split; assumption]. intros a1 i1 I1. apply ST. right. exact I1.
Qed.

Lemma put_total n m v0 d i k v : table n m v0 d -> (i < n)%nat -> (k < m)%nat -> k <> 0%nat -> exists d', put d (Z.of_nat i) (Z.of_nat k) v = Ok d' /\ table n m v0 d'.
Proof.
  intros T I K K0. pose proof T as [LN TC]. destruct (nth_error d i) as [c|] eqn:E; [|apply nth_error_None in E; lia]. destruct (TC i c E) as [LC _].
  destruct (put_wrote d i k (fun _ => v) c E ltac:(lia)) as (d' & E' & W). exists d'. split; [exact E'|]. eapply wrote_table; eauto.
Qed.

(** A file without header and the first layer has a cell with a value. *)
Lemma empty_layer own nd row col cell lyr data d : AddOtherLayer own nd row col cell lyr [] data d = Throw.
Proof. reflexivity. Qed.

Lemma row_throws own nd cols data n m v0 k i d : k <> 0%nat -> (k < m)%nat -> 0 < cols -> (Z.of_nat i * cols + cols <= Z.of_nat n) -> table n m v0 d ->
  (by_row own nd cols (Z.of_nat k) [] data d i = Throw \/ exists d', by_row own nd cols (Z.of_nat k) [] data d i = Ok d' /\ table n m v0 d') /\
  ((exists j, 0 <= j < cols /\ cells_equal nd (v0 (Z.to_nat (Z.of_nat i * cols + j))) = false) -> by_row own nd cols (Z.of_nat k) [] data d i = Throw).
Proof.
  intros K KM C IN T. unfold by_row. set (step := fun (d : list (list num)) (j : Z) => _).
  assert (ST : forall a j, In j (zseq cols) -> table n m v0 a -> step a j = Throw \/ exists a', step a j = Ok a' /\ table n m v0 a').
  { intros a j J TA. apply zseq_mem in J. unfold step. set (c := Z.to_nat (Z.of_nat i * cols + j)). assert (EC : Z.of_nat i * cols + j = Z.of_nat c) by (unfold c; nia).
    rewrite EC. pose proof TA as [LN TC]. assert (CN : (c < n)%nat) by lia. destruct (nth_error a c) as [row|] eqn:ER; [|apply nth_error_None in ER; lia]. destruct (TC c row ER) as [LR R0].
    rewrite (aget_ok a _ row) by (rewrite ?Nat2Z.id; auto; lia). cbn [obind]. rewrite (aget_ok row 0 (v0 c)) by (exact R0 || lia). cbn [obind].
    destruct (cells_equal nd (v0 c)); [|left; reflexivity]. right. apply put_total with (1 := TA); assumption. }
  split.
  - clear IN. assert (G : forall js a, (forall j, In j js -> In j (zseq cols)) -> table n m v0 a -> ofold step js a = Throw \/ exists a', ofold step js a = Ok a' /\ table n m v0 a').
    { induction js as [|j js IH]; intros a JS TA; cbn [ofold]; [right; eauto|]. destruct (ST a j (JS j (or_introl eq_refl)) TA) as [F|(a' & F & TA')]; rewrite F; [left; reflexivity|].
      cbn [obind]. apply IH; [intros j' J'; apply JS; right; exact J'|exact TA']. }
    apply G; [auto|exact T].
  - intros (j & J & V). apply (loop_fails step (table n m v0) Throw ltac:(reflexivity) (zseq cols) d T ST). exists j. split; [apply zseq_mem; exact J|].
    intros a TA. unfold step. set (c := Z.to_nat (Z.of_nat i * cols + j)) in *. assert (EC : Z.of_nat i * cols + j = Z.of_nat c) by (unfold c; nia).
    rewrite EC. pose proof TA as [LN TC]. assert (CN : (c < n)%nat) by nia. destruct (nth_error a c) as [row|] eqn:ER; [|apply nth_error_None in ER; lia]. destruct (TC c row ER) as [LR R0].
    rewrite (aget_ok a _ row) by (rewrite ?Nat2Z.id; auto; lia). cbn [obind]. rewrite (aget_ok row 0 (v0 c)) by (exact R0 || lia). cbn [obind]. rewrite V. reflexivity.
Qed.

(** The positions of a layer without header. *)
Lemma positions_throw own nd ks cols k data ord d : ks <> [] -> schedule (Z.of_nat (List.length ks)) ord ->
  ofold (by_position own nd (Some ks) cols (Z.of_nat k) [] data) ord d = Throw.
Proof.
  intros N SC. unfold schedule in SC. rewrite Nat2Z.id in SC. destruct ord as [|i ord].
  - apply Permutation_length in SC. rewrite seq_length in SC. destruct ks; [contradiction|discriminate].
  - cbn [ofold]. assert (I : In i (seq 0 (List.length ks))) by (apply (Permutation_in _ SC); left; reflexivity). apply in_seq in I.
    unfold by_position at 1. cbn [deref obind]. destruct (nth_error ks i) as [c|] eqn:E; [|apply nth_error_None in E; lia].
    rewrite (aget_ok ks _ c) by (rewrite ?Nat2Z.id; auto; lia). cbn [obind]. rewrite empty_layer. reflexivity.
Qed.

Lemma rows_throw own nd rows cols k data ord n m v0 d : k <> 0%nat -> (k < m)%nat -> 0 < cols -> Z.of_nat n = rows * cols -> schedule rows ord -> table n m v0 d ->
  (exists c, (c < n)%nat /\ cells_equal nd (v0 c) = false) ->
  ofold (by_row own nd cols (Z.of_nat k) [] data) ord d = Throw.
Proof.
  intros K KM C EN SC T (c & CN & V). unfold schedule in SC.
  assert (IB : forall i, In i ord -> Z.of_nat i * cols + cols <= Z.of_nat n). { intros i I. apply (Permutation_in _ SC) in I. apply in_seq in I. nia. }
  apply (loop_fails (by_row own nd cols (Z.of_nat k) [] data) (table n m v0) Throw ltac:(reflexivity) ord d T).
  - intros a i I TA. apply row_throws; auto.
  - assert (B : 0 <= Z.of_nat c < rows * cols) by lia.
    pose proof (Z.div_mod (Z.of_nat c) cols ltac:(lia)) as DM. pose proof (Z.mod_pos_bound (Z.of_nat c) cols C) as MB.
    assert (DB : 0 <= Z.of_nat c / cols < rows) by (split; [apply Z.div_pos; lia|apply Z.div_lt_upper_bound; lia]).
    exists (Z.to_nat (Z.of_nat c / cols)). assert (I : In (Z.to_nat (Z.of_nat c / cols)) ord) by (apply (Permutation_in _ (Permutation_sym SC)); apply in_seq; lia).
    split; [exact I|]. intros a TA. refine (proj2 (row_throws own nd cols data n m v0 k _ a K KM C (IB _ I) TA) _).
    exists (Z.of_nat c mod cols). split; [exact MB|]. rewrite Z2Nat.id by lia. replace (Z.to_nat (Z.of_nat c / cols * cols + Z.of_nat c mod cols)) with c by lia. exact V.
Qed.

Lemma ofold_app {A B} (f : A -> B -> outcome A) l1 : forall l2 a, ofold f (l1 ++ l2) a = let* b := ofold f l1 a in ofold f l2 b.
Proof. induction l1 as [|x l1 IH]; intros l2 a; [reflexivity|]. cbn [app ofold]. destruct (f a x); cbn [obind]; auto. Qed.

(** A file that cannot be read, after others that can. *)
Theorem unreadable o exist read s order1 orders file good bad rest l0 ls calc dflt nv nd ok data :
  FilesExist exist (file :: good ++ bad :: rest) = true ->
  gives (read file (map (fun kv => (fst kv, of_int (snd kv))) InitialHeader)) l0 -> proper l0 -> cvt s (VD (fl_nodata l0)) = Ok nd ->
  Forall2 (fun f l => gives (read f []) l) good ls -> Forall proper ls -> any_order l0 nd calc order1 orders ->
  (forall i j v, file_value l0 i j v -> cells_equal v nd = false -> forall l, In l ls ->
     let xy := fCoordinate (fl_geo l0) i j in exists w, seen l nd (fst xy) (snd xy) w) ->
  read bad [] = Ok (ok, [], data) -> (exists i j v, file_value l0 i j v /\ cells_equal v nd = false) ->
  ReadFromFiles o exist read s order1 orders (file :: good ++ bad :: rest) calc dflt nv = Throw.
Proof.
  intros EX G0 P0 CV GS PS OR SE RB (i & j & v & FV & V).
  assert (NE : good ++ bad :: rest <> []) by (destruct good; discriminate).
  destruct (read_start o exist read s order1 orders file (good ++ bad :: rest) good l0 ls calc dflt nv nd EX NE G0 P0 CV GS PS OR SE) as (h & d1 & _ & OG & T1 & E).
  cbv zeta in E. rewrite E. clear E. pose proof (all_handled o exist read s order1 orders file (good ++ bad :: rest) good l0 ls calc dflt nv nd EX NE G0 P0 CV GS PS OR SE h OG) as FH.
  set (m := List.length (file :: good ++ bad :: rest)) in *. set (n := List.length (stored_values l0 calc nd)) in *.
  set (R := first_raster l0 nd calc dflt nv (Z.of_nat m)) in *. set (cols := fg_cols (fl_geo l0)) in *. set (rows := fg_rows (fl_geo l0)).
  assert (ML : (1 + List.length good < m)%nat) by (unfold m; cbn [List.length]; rewrite app_length; cbn [List.length]; lia).
  destruct (files_ok read h cols R orders n m _ _ good ls FH 1%nat d1 ltac:(lia) ltac:(lia) T1) as (d2 & E2 & T2 & _).
  unfold add_layers.
  assert (TH : ofold (files_step read h cols R orders) (good ++ bad :: rest) (1%nat, d1) = Throw).
  { rewrite ofold_app, E2. cbn [obind ofold]. unfold files_step at 1. cbn [fst snd]. rewrite RB. cbn [obind].
    replace (layer_step h cols R orders (1 + List.length good) [] data d2) with (@Throw (list (list num))); [reflexivity|]. symmetry.
    destruct (R_fields file (good ++ bad :: rest) l0 calc dflt nv nd P0) as (_ & _ & _ & EN & _ & _ & EP & EI & _).
    unfold layer_step. fold m in EN, EP, EI. fold R in EN, EP, EI. rewrite EN, EP, EI. clear EN EP EI.
    destruct (number_of l0 nd P0 i j v FV) as (NU & B & _ & _ & EV). fold cols in NU, B, EV. fold rows in B. apply proj2 in NU. specialize (NU V).
    unfold any_order in OR. destruct calc.
    - cbn [isnull negb orb]. assert (NN : numbers l0 nd <> []) by (intros X; rewrite X in NU; destruct NU).
      destruct (numbers l0 nd) as [|k0 t] eqn:EK; [contradiction|]. rewrite <- EK in *.
      replace (Z.of_nat (List.length (numbers l0 nd)) <=? 0) with false by (rewrite EK; cbn [List.length]; lia).
      apply positions_throw; [exact NN|]. rewrite (numbers_count l0 nd P0). apply OR.
    - cbn [isnull negb orb]. destruct OR as [_ OK]. eapply (rows_throw h nd rows cols (1 + List.length good) data); [lia| | | |apply OK|exact T2|]; [lia| | |].
      + destruct P0 as ((_ & C & _) & _). exact C.
      + exact (vals0 l0 P0).
      + exists (Z.to_nat (i * cols + j)). pose proof (vals0 l0 P0) as LV. fold rows cols in LV. unfold n, stored_values. split; [lia|]. rewrite EV, cells_equal_sym. exact V. }
  etransitivity; [exact (f_equal (fun x => obind (obind x _) _) TH)|reflexivity].
Qed.
