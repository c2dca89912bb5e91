(** C28-C32, C69, C70: subsets of a raster. *)
From Coq Require Import ZArith QArith List Bool Lia Sorted Permutation.
From Verif Require Import Base ListLib RasterModel RasterSpec RasterProofs RasterProofs2 RasterProofs3 CoordModel
  SubsetModel SubsetSpec SubsetProofs SubsetProofs2 SubsetProofs3 SubsetProofs4 SubsetProofs5 SubsetProofs6.
Import ListNotations.
Open Scope Z_scope.
Open Scope outcome_scope.

(** A 2x3 grid of zones with one NoData cell, and the raster of its five valid
    cells. *)
Definition exz : raster Z := FromArray (Some [7; -9999; 2; 7; 2; 2]) 3 2 (-9999) (-9999) 10 100 200.
Definition exc : raster Z := match SetCalcPositions Z.eqb [4;0;1;3;2]%nat exz with Ok (r, _) => r | _ => exz end.
Lemma exc_compact : compact exc [0; 2; 3; 4; 5].
Proof.
  unfold compact. vm_compute. split; [reflexivity|]. split; [reflexivity|]. split; [discriminate|]. split; [reflexivity|].
  split; [reflexivity|]. split; [split; [reflexivity|]; eexists; split; reflexivity|]. split; [reflexivity|]. split; [reflexivity|].
  split; [reflexivity|]. split; repeat constructor; discriminate.
Qed.
Lemma exc_fit : zones_fit Z.eqb Some exc.
Proof. intros vi v _ _ _. discriminate. Qed.

(** ** C28. Every valid cell lies in exactly one subset, that of its (mapped)
    integer value; cells are kept in ascending order; no subset is empty; ids
    ascend. *)
Theorem C28_partition : forall (T D : Type) (feq : T -> T -> bool) (toint : T -> option Z) (r : raster T) ix groups ord,
  compact r ix -> zones_fit feq toint r -> exists subs : list (Z * subset D),
  BuildSubSet feq toint ord r [] groups = Ok (r, subs, true) /\
  StronglySorted Z.lt (map fst subs) /\
  (forall k s, In (k, s) subs -> exists g, s_global s = Some g /\ s_n s = Z.of_nat (length g) /\ g <> [] /\
     StronglySorted Z.lt g /\ forall vi, In vi g <-> in_group feq toint r groups k vi) /\
  (forall vi v, 0 <= vi < r_ncells r -> read_cell r vi 1 = Ok v -> feq v (r_nodata r) = false ->
     exists k s, In (k, s) subs /\ in_group feq toint r groups k vi /\
       forall k' s', In (k', s') subs -> in_group feq toint r groups k' vi -> k' = k /\ s' = s).
Proof. intros. eapply partition; eassumption. Qed.
Print Assumptions C28_partition.

(** A raster still holding its NoData cells is compacted first. *)
Theorem C28_full : forall (T D : Type) (feq : T -> T -> bool) (toint : T -> option Z) (r : raster T) groups,
  full_grid r -> exists r',
  (forall ord, schedule (r_ncells r') ord -> SetCalcPositions feq ord r = Ok (r', true)) /\
  ((exists ix, compact r' ix) /\
     (forall ord (subs : list (Z * subset D)), schedule (r_ncells r') ord ->
        BuildSubSet feq toint ord r subs groups = BuildSubSet feq toint ord r' subs groups)
   \/ r_ncells r' = 0 /\
      (forall ord, schedule (r_ncells r') ord ->
        BuildSubSet feq toint ord r [] groups = Ok (r', ([] : list (Z * subset D)), true))).
Proof.
  intros T D feq toint r groups F. destruct (SetCalcPositions_spec feq r F) as (r' & pos & S & W & _ & _ & _ & _ & P & N & _).
  exists r'. split; [exact S|]. destruct W as [W|[(ix & W)|W]].
  - exfalso. destruct W as (_ & _ & _ & _ & _ & Q & _). congruence.
  - left. split; [exists ix; exact W|]. intros ord subs Ho. eapply build_full; eauto. apply W.
  - right. split; [apply W|]. intros ord Ho. apply build_empty; [exact F|apply S, Ho|apply W].
Qed.
Print Assumptions C28_full.

(** Existing subsets are kept. *)
Theorem C28_again : forall (T D : Type) (feq : T -> T -> bool) (toint : T -> option Z) (r : raster T) ix groups ord x (subs : list (Z * subset D)),
  compact r ix -> BuildSubSet feq toint ord r (x :: subs) groups = Ok (r, x :: subs, true).
Proof. intros. eapply build_again; eassumption. Qed.
Print Assumptions C28_again.

Example C28_ex : exists subs : list (Z * subset Z), BuildSubSet Z.eqb Some [] exc [] [(7, 3)] = Ok (exc, subs, true) /\
  map (fun ks => (fst ks, s_global (snd ks))) subs = [(2, Some [1; 3; 4]); (3, Some [0; 2])].
Proof. eexists. split; vm_compute; reflexivity. Qed.

(** ** C29. Windows are bounding boxes; local positions are relative to the
    window, inside it and pairwise distinct. *)
Theorem C29_windows : forall (T D : Type) (feq : T -> T -> bool) (toint : T -> option Z) (r : raster T) ix groups ord (subs : list (Z * subset D)),
  compact r ix -> zones_fit feq toint r -> BuildSubSet feq toint ord r [] groups = Ok (r, subs, true) ->
  forall k s, In (k, s) subs -> exists g lp li, subset_of s g lp li /\ bounding_box r s g /\
    StronglySorted Z.lt li /\
    (forall i vi row col, nth_error g i = Some vi -> cell_at r vi row col ->
       nth_error lp i = Some (row - s_srow s, col - s_scol s) /\
       nth_error li i = Some ((row - s_srow s) * (s_ecol s - s_scol s + 1) + (col - s_scol s))) /\
    Forall (fun p => 0 <= fst p <= s_erow s - s_srow s /\ 0 <= snd p <= s_ecol s - s_scol s) lp /\
    Forall (fun j => 0 <= j < (s_erow s - s_srow s + 1) * (s_ecol s - s_scol s + 1)) li.
Proof. intros. eapply windows; eassumption. Qed.
Print Assumptions C29_windows.

Example C29_ex : exists subs : list (Z * subset Z), BuildSubSet Z.eqb Some [] exc [] [] = Ok (exc, subs, true) /\
  map (fun ks => (fst ks, (s_srow (snd ks), s_erow (snd ks), s_scol (snd ks), s_ecol (snd ks)), s_lidx (snd ks))) subs
  = [(2, (0, 1, 1, 2), Some [1; 2; 3]); (7, (0, 1, 0, 0), Some [0; 1])].
Proof. eexists. split; vm_compute; reflexivity. Qed.

(** ** C30. Handing every subset its values and combining all subsets gives the
    raster back, NoData cells with the NoData value. *)
Lemma built {T D} feq toint (r : raster T) ix groups ord (subs : list (Z * subset D)) : compact r ix -> zones_fit feq toint r ->
  BuildSubSet feq toint ord r [] groups = Ok (r, subs, true) ->
  ksorted subs /\ forall k, zfind subs k = opt (final r ix) (cells feq toint r groups k (all r)).
Proof.
  intros C F E. destruct (Build_compact (D := D) feq toint r ix groups C F ord) as (subs' & E' & KS & ZF).
  assert (subs' = subs) by congruence. subst. auto.
Qed.

Theorem C30_values : forall (T D : Type) (feq : T -> T -> bool) (toint : T -> option Z) (toD : T -> D) (ofD : D -> outcome T) (feqD : D -> D -> bool) (dNODATA : D) (r : raster T) ix groups ord subs default dv,
  compact r ix -> zones_fit feq toint r -> (forall v, ofD (toD v) = Ok v) ->
  BuildSubSet feq toint ord r [] groups = Ok (r, subs, true) -> subs <> [] ->
  exists subs' d, split_values toD dNODATA r subs = Ok subs' /\
  PrepareCombSubsetData feqD toint toD ofD dNODATA r dv subs' false true [] default = Ok (Some (d, r_rows r * r_cols r, 1)) /\
  Z.of_nat (length d) = r_rows r * r_cols r /\
  forall row col, inside r row col -> exists v, GetValue r row col 1 = Ok v /\
    nth_error d (Z.to_nat (row * r_cols r + col)) = Some (if feq v (r_nodata r) then r_nodata r else v).
Proof.
  intros T D feq toint toD ofD feqD dNODATA r ix groups ord subs default dv C F RT E NE.
  destruct (built _ _ _ _ _ _ _ C F E) as [KS ZF].
  destruct (combine_values feq toint r ix groups C subs KS ZF toD dNODATA feqD ofD RT F default dv NE) as (d & P & L & G).
  eexists. exists d. split; [apply (split_values_ok feq toint r ix groups C subs KS ZF)|]. auto.
Qed.
Print Assumptions C30_values.

Theorem C30_layers : forall (T D : Type) (feq : T -> T -> bool) (toint : T -> option Z) (toD : T -> D) (ofD : D -> outcome T) (feqD : D -> D -> bool) (dNODATA : D) (r : raster T) ix groups ord subs default dv,
  compact r ix -> zones_fit feq toint r -> (forall v, ofD (toD v) = Ok v) -> 1 < r_nlyrs r ->
  BuildSubSet feq toint ord r [] groups = Ok (r, subs, true) -> subs <> [] ->
  exists subs' d, split_layers toD dNODATA r subs = Ok subs' /\
  PrepareCombSubsetData feqD toint toD ofD dNODATA r dv subs' false true [] default
   = Ok (Some (d, r_rows r * r_cols r * r_nlyrs r, r_nlyrs r)) /\
  Z.of_nat (length d) = r_rows r * r_cols r * r_nlyrs r /\
  forall row col l, inside r row col -> 0 <= l < r_nlyrs r -> exists v1 v,
    GetValue r row col 1 = Ok v1 /\ GetValue r row col (l + 1) = Ok v /\
    nth_error d (Z.to_nat ((row * r_cols r + col) * r_nlyrs r + l)) = Some (if feq v1 (r_nodata r) then r_nodata r else v).
Proof.
  intros T D feq toint toD ofD feqD dNODATA r ix groups ord subs default dv C F RT NL E NE.
  destruct (built _ _ _ _ _ _ _ C F E) as [KS ZF].
  destruct (combine_layers feq toint r ix groups C subs KS ZF toD dNODATA feqD ofD RT F default dv NE NL) as (d & P & L & G).
  eexists. exists d. split; [apply (split_layers_ok feq toint r ix groups C subs KS ZF toD dNODATA feqD)|]. auto.
Qed.
Print Assumptions C30_layers.

Example C30_ex : exists subs subs', BuildSubSet Z.eqb Some [] exc [] [] = Ok (exc, subs, true) /\
  split_values (fun v => v) (-9999) exc subs = Ok subs' /\
  PrepareCombSubsetData Z.eqb Some (fun v => v) Ok (-9999) exc 0 subs' false true [] (-9999)
   = Ok (Some ([7; -9999; 2; 7; 2; 2], 6, 1)).
Proof. eexists. eexists. split; [vm_compute; reflexivity|]. split; vm_compute; reflexivity. Qed.

(** The layered form fails for one layer, and handing layered data to a subset
    that already has fewer layers writes outside the array. *)
Theorem C30_one_layer_refuted : exists (r : raster Z) ix subs subs', compact r ix /\ zones_fit Z.eqb Some r /\
  BuildSubSet Z.eqb Some [] r [] [] = Ok (r, subs, true) /\ subs <> [] /\
  split_layers (fun v => v) (-9999) r subs = Ok subs' /\
  forall default dv, PrepareCombSubsetData Z.eqb Some (fun v => v) Ok (-9999) r dv subs' false true [] default = Ok None.
Proof.
  exists exc, [0; 2; 3; 4; 5]. eexists. eexists. split; [exact exc_compact|]. split; [exact exc_fit|].
  split; [vm_compute; reflexivity|]. split; [discriminate|]. split; [vm_compute; reflexivity|]. intros default dv.
  unfold PrepareCombSubsetData. destruct (default =? -9999); vm_compute; reflexivity.
Qed.
Print Assumptions C30_one_layer_refuted.

Theorem C30_more_layers_refuted : exists (s s' : subset Z) n d d',
  Set2DData (fun v => v) (-9999) s n 1 (Some d) = Ok (s', true) /\ s_n s' = n /\
  Z.of_nat (length d') = n /\ Forall (fun c => length c = 2%nat) d' /\
  Set2DData (fun v => v) (-9999) s' n 2 (Some d') = UB.
Proof.
  exists (mkSub true 1 (-1) 0 0 0 0 true (Some [(0, 0)]) (Some [0]) (Some [0]) None None). eexists. exists 1, [[5]], [[5; 6]].
  split; [vm_compute; reflexivity|]. split; [reflexivity|]. split; [reflexivity|]. split; [repeat constructor|vm_compute; reflexivity].
Qed.
Print Assumptions C30_more_layers_refuted.

(** ** C31. Combined output of the original values fails, and writes nothing,
    whenever a usable subset exists. *)
Theorem C31_never : forall (T D : Type) (feq : T -> T -> bool) (toint : T -> option Z) (toD : T -> D) (ofD : D -> outcome T) (feqD : D -> D -> bool) (dNODATA : D) (r : raster T) ix groups ord (subs : list (Z * subset D)) f default dv v write_ok,
  compact r ix -> zones_fit feq toint r ->
  BuildSubSet feq toint ord r [] groups = Ok (r, subs, true) -> keeps_cells f ->
  (exists k s, In (k, s) (refill f subs) /\ s_usable s = true) ->
  ofD (if feqD default dNODATA then dv else default) = Ok v ->
  OutputSubsetToFile feqD toint toD ofD dNODATA write_ok r dv (refill f subs) true true [] default = Ok ([], false).
Proof.
  intros T D feq toint toD ofD feqD dNODATA r ix groups ord subs f default dv v write_ok C F E Hf U DV.
  destruct (built _ _ _ _ _ _ _ C F E) as [KS ZF].
  pose proof (prepare_origin feq toint r ix groups C subs KS ZF feqD toD ofD dNODATA f Hf default dv v U DV) as P.
  unfold OutputSubsetToFile. pose proof C as (_ & _ & _ & _ & _ & CS & _). rewrite (storage_valid r _ CS). cbn [negb].
  change (map (fun ks => (fst ks, f ks)) subs) with (refill f subs) in P.
  destruct (refill f subs) as [|x y] eqn:Er; [reflexivity|]. rewrite P. reflexivity.
Qed.
Print Assumptions C31_never.

(** So the documented request is refused on an ordinary raster. *)
Theorem C31_refuted : exists (r : raster Z) ix subs, compact r ix /\
  BuildSubSet Z.eqb Some [] r [] [] = Ok (r, subs, true) /\ subs <> [] /\
  forall write_ok, OutputSubsetToFile Z.eqb Some (fun v => v) Ok (-9999) write_ok r (-9999) subs true true [] (-9999) = Ok ([], false).
Proof.
  exists exc, [0; 2; 3; 4; 5]. eexists. split; [exact exc_compact|]. split; [vm_compute; reflexivity|]. split; [discriminate|].
  intros. vm_compute. reflexivity.
Qed.
Print Assumptions C31_refuted.

(** ** C32. Window cells have the coordinates of the raster cells. *)
Theorem C32_header : forall (D : Type) (s : subset D) g lr lc,
  let c := GetCoordinateByRowCol (GetHeader s g) lr lc in
  let c' := GetCoordinateByRowCol g (lr + s_srow s) (lc + s_scol s) in
  (fst c == fst c' /\ snd c == snd c')%Q.
Proof. intros. apply header_coord. Qed.
Print Assumptions C32_header.

Theorem C32_cells : forall (T D : Type) feq toint (r : raster T) ix groups ord (subs : list (Z * subset D)) k s g lp i vi lr lc row col,
  compact r ix -> zones_fit feq toint r -> BuildSubSet feq toint ord r [] groups = Ok (r, subs, true) -> In (k, s) subs ->
  s_global s = Some g -> s_lpos s = Some lp -> nth_error g i = Some vi -> nth_error lp i = Some (lr, lc) -> cell_at r vi row col ->
  let c := GetCoordinateByRowCol (GetHeader s (geo_of r)) lr lc in
  let c' := GetCoordinateByRowCol (geo_of r) row col in
  (fst c == fst c' /\ snd c == snd c')%Q.
Proof.
  intros T D feq toint r ix groups ord subs k s g lp i vi lr lc row col C F E H Hg Hlp Ng Nl Hc.
  destruct (windows feq toint r ix groups ord subs C F E k s H) as (g' & lp' & li & (S1 & S2 & _) & _ & _ & P & _).
  assert (g' = g) by congruence. assert (lp' = lp) by congruence. subst g' lp'. destruct (P i vi row col Ng Hc) as [Q _].
  rewrite Nl in Q. injection Q as -> ->. pose proof (header_coord s (geo_of r) (row - s_srow s) (col - s_scol s)) as X.
  cbn zeta in *. replace (row - s_srow s + s_srow s) with row in X by lia. replace (col - s_scol s + s_scol s) with col in X by lia. exact X.
Qed.
Print Assumptions C32_cells.

Example C32_ex : exists subs : list (Z * subset Z), BuildSubSet Z.eqb Some [] exc [] [] = Ok (exc, subs, true) /\
  map (fun ks => let h := GetHeader (snd ks) (geo_of exc) in (g_rows h, g_cols h, Qred (g_xll h), Qred (g_yll h))) subs
  = [(2, 2, 110%Q, 200%Q); (2, 1, 100%Q, 200%Q)].
Proof. eexists. split; vm_compute; reflexivity. Qed.

(** ** C69. Combination with a table by subset id, and with unusable subsets. *)
Theorem C69_table : forall (T D : Type) (feq : T -> T -> bool) (toint : T -> option Z) (toD : T -> D) (ofD : D -> outcome T) conv (feqD : D -> D -> bool) (dNODATA : D) (r : raster T) ix groups ord subs us recls L default dv,
  compact r ix -> zones_fit feq toint r -> (forall x, ofD x = Ok (conv x)) ->
  BuildSubSet feq toint ord r [] groups = Ok (r, subs, true) -> subs <> [] ->
  recls <> [] -> 0 < L -> Forall (fun kv => Z.of_nat (length (snd kv)) = L) recls ->
  let def := if feqD default dNODATA then dv else default in
  exists d,
  PrepareCombSubsetData feqD toint toD ofD dNODATA r dv (mark us subs) false true recls default = Ok (Some (d, r_rows r * r_cols r * L, L)) /\
  Z.of_nat (length d) = r_rows r * r_cols r * L /\
  (forall k vi row col l, in_group feq toint r groups k vi -> cell_at r vi row col -> 0 <= l < L ->
     nth_error d (Z.to_nat ((row * r_cols r + col) * L + l)) =
     Some (if us k || negb (feqD (toD (r_nodata r)) def) then conv (table_value recls k l def) else r_nodata r)) /\
  (forall row col l, inside r row col -> 0 <= l < L ->
     (forall k vi, in_group feq toint r groups k vi -> ~ cell_at r vi row col) ->
     nth_error d (Z.to_nat ((row * r_cols r + col) * L + l)) = Some (r_nodata r)).
Proof.
  intros T D feq toint toD ofD conv feqD dNODATA r ix groups ord subs us recls L default dv C F OD E NE NR PL FL.
  destruct (built _ _ _ _ _ _ _ C F E) as [KS ZF].
  eapply combine_table; eassumption.
Qed.
Print Assumptions C69_table.

Theorem C69_unusable : forall (T D : Type) (feq : T -> T -> bool) (toint : T -> option Z) (toD : T -> D) (ofD : D -> outcome T) (feqD : D -> D -> bool) (dNODATA : D) (r : raster T) ix groups ord subs us default dv dfv,
  compact r ix -> zones_fit feq toint r -> (forall v, ofD (toD v) = Ok v) ->
  BuildSubSet feq toint ord r [] groups = Ok (r, subs, true) -> (exists k s, In (k, s) subs /\ us k = true) ->
  let def := if feqD default dNODATA then dv else default in
  ofD def = Ok dfv ->
  exists subs' d, split_values toD dNODATA r subs = Ok subs' /\
  PrepareCombSubsetData feqD toint toD ofD dNODATA r dv (mark us subs') false true [] default = Ok (Some (d, r_rows r * r_cols r, 1)) /\
  Z.of_nat (length d) = r_rows r * r_cols r /\
  (forall k vi row col, in_group feq toint r groups k vi -> cell_at r vi row col -> exists v, read_cell r vi 1 = Ok v /\
     nth_error d (Z.to_nat (row * r_cols r + col)) =
     Some (if us k then v else if feqD (toD (r_nodata r)) def then r_nodata r else dfv)) /\
  (forall row col, inside r row col ->
     (forall k vi, in_group feq toint r groups k vi -> ~ cell_at r vi row col) ->
     nth_error d (Z.to_nat (row * r_cols r + col)) = Some (r_nodata r)).
Proof.
  intros T D feq toint toD ofD feqD dNODATA r ix groups ord subs us default dv dfv C F RT E U def DV.
  destruct (built _ _ _ _ _ _ _ C F E) as [KS ZF]. eexists.
  destruct (combine_marked feq toint r ix groups C subs KS ZF feqD toD ofD dNODATA us default dv dfv RT U DV) as (d & P & G).
  exists d. split; [apply (split_values_ok feq toint r ix groups C subs KS ZF)|]. split; [exact P|exact G].
Qed.
Print Assumptions C69_unusable.

Example C69_ex : exists subs, BuildSubSet Z.eqb Some [] exc [] [] = Ok (exc, subs, true) /\
  PrepareCombSubsetData Z.eqb Some (fun v => v) Ok (-9999) exc 0 (mark (Z.eqb 2) subs) false true [(2, [20; 21])] (-1)
   = Ok (Some ([-1; -1; -9999; -9999; 20; 21; -1; -1; 20; 21; 20; 21], 12, 2)).
Proof. eexists. split; vm_compute; reflexivity. Qed.

(** ** C70. Output of the original values by subset: one file per usable subset
    and layer, in order, until a write fails; each file holds the window with
    the subset's cells in place and NoData elsewhere. *)
Theorem C70_windows : forall (T D : Type) (feq : T -> T -> bool) (toint : T -> option Z) (toD : T -> D) (ofD : D -> outcome T) (feqD : D -> D -> bool) (dNODATA : D) (r : raster T) ix groups ord subs us default dv write_ok,
  compact r ix -> zones_fit feq toint r -> r_is2d r = (1 <? r_nlyrs r) ->
  BuildSubSet feq toint ord r [] groups = Ok (r, subs, true) -> subs <> [] ->
  exists log flag wanted rest,
  OutputSubsetToFile feqD toint toD ofD dNODATA write_ok r dv (mark us subs) true false [] default = Ok (log, flag) /\
  wanted = log ++ rest /\ (flag = true -> rest = []) /\
  ((forall l q, write_ok l q = true) -> flag = true) /\
  map (fun q => (q_id q, q_lyr q)) wanted = wanted_files us (r_nlyrs r) subs /\
  forall q, In q wanted -> exists s l, In (q_id q, s) subs /\ 0 <= l < r_nlyrs r /\ q_lyr q = (if r_nlyrs r =? 1 then 0 else l + 1) /\
    q_geo q = GetHeader s (geo_of r) /\ q_cells q = win_rows s * win_cols s /\ q_lyrs q = r_nlyrs r /\
    Z.of_nat (length (q_data q)) = win_rows s * win_cols s /\
    forall row col, 0 <= row < win_rows s -> 0 <= col < win_cols s ->
     (forall vi, in_group feq toint r groups (q_id q) vi -> cell_at r vi (row + s_srow s) (col + s_scol s) ->
        exists v, read_cell r vi (l + 1) = Ok v /\ nth_error (q_data q) (Z.to_nat (row * win_cols s + col)) = Some v) /\
     ((forall vi, in_group feq toint r groups (q_id q) vi -> ~ cell_at r vi (row + s_srow s) (col + s_scol s)) ->
        nth_error (q_data q) (Z.to_nat (row * win_cols s + col)) = Some (r_nodata r)).
Proof.
  intros T D feq toint toD ofD feqD dNODATA r ix groups ord subs us default dv write_ok C F REG E NE.
  destruct (built _ _ _ _ _ _ _ C F E) as [KS ZF].
  pose proof (output_windows feq toint r ix groups C subs KS ZF feqD toD ofD dNODATA REG write_ok us default dv NE) as O.
  set (W := all_reqs feq toint r ix groups us subs) in *.
  destruct (run_prefix write_ok W [] true) as (pre & post & EW & E1 & E2).
  destruct (run_reqs write_ok [] true W) as [log flag] eqn:ER. cbn [fst snd app] in E1, E2. subst pre.
  exists log, flag, W, post. split; [exact O|]. split; [exact EW|]. split; [intros X; apply E2, X|]. split.
  { intros X. rewrite run_all in ER by exact X. congruence. }
  split.
  { unfold W, all_reqs, wanted_files. clear. induction subs as [|[k s] l IH]; [reflexivity|]. cbn [flat_map fst]. rewrite map_app, IH. f_equal.
    destruct (us k); [|reflexivity]. unfold win_reqs. rewrite map_map. apply map_ext. reflexivity. }
  intros q Hq. unfold W, all_reqs in Hq. apply in_flat_map in Hq. destruct Hq as ([k s] & Hs & Hq). cbn [fst] in Hq.
  destruct (us k); [|destruct Hq]. unfold win_reqs in Hq. apply in_map_iff in Hq. destruct Hq as (l & <- & Hl). apply zseq_In in Hl.
  pose proof Hs as Hs0. apply (subs_shape feq toint r ix groups subs KS ZF) in Hs0. destruct Hs0 as [-> _].
  destruct (win_req_spec feq toint r ix groups C subs KS ZF feqD ofD dNODATA REG write_ok k l Hs Hl) as [LN P]. cbn zeta in *.
  eexists. exists l. split; [exact Hs|]. split; [exact Hl|]. split; [reflexivity|]. split; [reflexivity|]. split; [reflexivity|].
  split; [reflexivity|]. split; [exact LN|]. intros row col Br Bc. unfold win_rows, win_cols in *. apply (P row col); lia.
Qed.
Print Assumptions C70_windows.

Example C70_ex : exists subs, BuildSubSet Z.eqb Some [] exc [] [] = Ok (exc, subs, true) /\
  exists log, OutputSubsetToFile Z.eqb Some (fun v => v) Ok (-9999) (fun _ _ => true) exc 0 subs true false [] (-1) = Ok (log, true) /\
  map (fun q => (q_id q, q_data q)) log = [(2, [-9999; 2; 2; 2]); (7, [7; 7])].
Proof. eexists. split; [vm_compute; reflexivity|]. eexists. split; vm_compute; reflexivity. Qed.

(** A layered raster with a single layer is skipped without any failure report. *)
Theorem C70_one_layer_refuted : exists (r : raster Z) ix subs, compact r ix /\ zones_fit Z.eqb Some r /\ r_is2d r = true /\ r_nlyrs r = 1 /\
  BuildSubSet Z.eqb Some [] r [] [] = Ok (r, subs, true) /\ subs <> [] /\
  forall write_ok, OutputSubsetToFile Z.eqb Some (fun v => v) Ok (-9999) write_ok r (-9999) subs true false [] (-9999) = Ok ([], true).
Proof.
  exists (match SetCalcPositions Z.eqb [0; 1]%nat (FromArray2D (Some [[4]; [-9999]; [5]]) 3 1 1 (-9999) (-9999) 1 0 0) with Ok (r, _) => r | _ => exz end).
  exists [0; 2]. eexists. split.
  { unfold compact. vm_compute. split; [reflexivity|]. split; [reflexivity|]. split; [discriminate|]. split; [reflexivity|].
    split; [reflexivity|]. split; [eexists; split; [reflexivity|]; split; [reflexivity|repeat constructor]|]. split; [reflexivity|]. split; [reflexivity|].
    split; [reflexivity|]. split; repeat constructor; discriminate. }
  split; [intros vi v _ _ _; discriminate|]. split; [reflexivity|]. split; [reflexivity|].
  split; [vm_compute; reflexivity|]. split; [discriminate|]. intros. vm_compute. reflexivity.
Qed.
Print Assumptions C70_one_layer_refuted.
