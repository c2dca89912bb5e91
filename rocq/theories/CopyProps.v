(** C38-C40, C74: copies, statistics, rasters from a mask and values. *)
From Coq Require Import ZArith QArith List Bool Lia String Sorted Permutation.
From Verif Require Import Base StrModel MapModel MapProofs RasterModel RasterSpec ListLib RasterProofs RasterProofs2 RasterProofs3
  SubsetModel MathModel MathSpec CopyModel CopySpec CopyProofs2 CopyProofs3 CopyProofs4.
Import List ListNotations.
Open Scope Z_scope.
Open Scope outcome_scope.

(** *** C38: copies read the same *)
Theorem C38_fresh : forall T D (feqD : D -> D -> bool) dNODATA (tNODATA tDefault : T) type_in_options junkT junkZ junkD (src : robj T D),
  sound src ->
  exists o, CopyCtor dNODATA tNODATA tDefault type_in_options junkT junkZ junkD src = Ok o /\
    reads_like feqD dNODATA src o /\ sound o.
Proof. intros. now apply CopyCtor_ok. Qed.
Print Assumptions C38_fresh.

Theorem C38_onto : forall T D (feqD : D -> D -> bool) dNODATA (tNODATA tDefault : T) type_in_options junkT junkZ junkD (t src : robj T D),
  sound src -> can_receive t src ->
  exists o, Copy dNODATA tNODATA tDefault type_in_options junkT junkZ junkD t src = Ok o /\
    reads_like feqD dNODATA src o /\ sound o.
Proof. intros. now apply Copy_ok. Qed.
Print Assumptions C38_onto.

(** Every single-layer raster copied onto every multi-layer one: each cell reads NoData. *)
Theorem C38_refuted : forall T D dNODATA (tNODATA tDefault : T) type_in_options junkT junkZ junkD (t src : robj T D),
  sound src -> o_scalc src = false -> r_is2d (o_r src) = false ->
  holding (o_r t) -> r_init (o_r t) = true -> r_is2d (o_r t) = true ->
  exists o, Copy dNODATA tNODATA tDefault type_in_options junkT junkZ junkD t src = Ok o /\ ValidateRasterData (o_r o) = false /\
    forall row col lyr, GetValue (o_r o) row col lyr = Ok (r_nodata (o_r src)).
Proof. intros. apply Copy_layers_single; auto. exact (fun _ _ => true). Qed.
Print Assumptions C38_refuted.

(** Concrete rasters: 2 x 2 cells, single-layer and two layers. *)
Definition dummy_raster : raster Z := mkRaster 0 0 0%Q 0%Q 0%Q 0 0 0 0 0 0 0 false None None None None false false false false.
Definition ok_or {A} (x : outcome A) (d : A) : A := match x with Ok a => a | _ => d end.
Definition one_layer : raster Z := FromArray (Some [5; -9; 7; 8]) 2 2 (-9) 0 10%Q 0%Q 0%Q.
Definition two_layers : raster Z := FromArray2D (Some [[5; 50]; [6; 60]; [-9; 70]; [8; 80]]) 2 2 2 (-9) 0 10%Q 0%Q 0%Q.
Definition one_dropped : raster Z := fst (ok_or (SetCalcPositions Z.eqb [1; 0; 2]%nat one_layer) (dummy_raster, false)).
Definition wrap {T} (r : raster T) {D} (nd : D) : robj T D :=
  mkRobj r nd [] [(str "SRS", str "none")] 0 0 None (fst (InitialStatsMap nd [] [])) (snd (InitialStatsMap nd [] [])) false [].

Lemma full_one : full_grid one_layer.
Proof. unfold full_grid, storage, one_layer; cbn. repeat split; try lia. exists [5; -9; 7; 8]. auto. Qed.
Lemma full_two : full_grid two_layers.
Proof.
  unfold full_grid, storage, two_layers; cbn. repeat split; try lia. eexists. split; [reflexivity|]. split; [reflexivity|].
  repeat constructor.
Qed.
Lemma compact_one : compact one_dropped [0; 2; 3].
Proof.
  replace [0; 2; 3] with (valid_idx Z.eqb one_layer) by (vm_compute; reflexivity).
  unfold one_dropped. rewrite (SetCalcPositions_full Z.eqb one_layer [1; 0; 2]%nat full_one); [|apply perm_swap].
  destruct (compacted_shape Z.eqb one_layer full_one) as [(X & _)|(_ & X)]; [vm_compute in X; discriminate|exact X].
Qed.
Lemma wrap_sound {T D} (r : raster T) (nd : D) : holding r -> sound (wrap r nd).
Proof.
  intros H. unfold sound, stats_ok, wrap. cbn [o_r o_stats o_stats2 o_scalc o_subset o_opts]. split; [exact H|]. split; [split|].
  - exact (initial_named_stats nd (r_nodata r) (r_nodata r)).
  - intros _. split; [exact (initial_named_stats2 nd (r_nodata r) (r_nodata r))|]. intros k p I. cbn in I. intuition congruence.
  - split; [constructor|]. split; [constructor|]. repeat constructor. intros [].
Qed.

Example C38_ex : sound (wrap one_dropped 0) /\ sound (wrap two_layers 0) /\
  can_receive (wrap one_layer 0) (wrap one_dropped 0) /\ can_receive (wrap two_layers 0) (wrap two_layers 0).
Proof.
  split; [apply wrap_sound; right; eexists; apply compact_one|]. split; [apply wrap_sound; left; split; [apply full_two|reflexivity]|].
  split.
  - split; [reflexivity|]. split; [repeat constructor; intros []|]. split; [exact (initial_named_stats 0 0 0)|]. split; [discriminate|reflexivity].
  - split; [reflexivity|]. split; [repeat constructor; intros []|]. split; [exact (initial_named_stats 0 0 0)|]. split; [discriminate|].
    split; [right; split; [reflexivity|split; [vm_compute; reflexivity|discriminate]]|]. split; [reflexivity|].
    split; [exact (initial_named_stats2 0 0 0)|]. intros k p I. cbn in I. intuition congruence.
Qed.
Example C38_refuted_ex : sound (wrap one_layer 0) /\ holding (o_r (wrap two_layers 0)) /\ r_init two_layers = true /\
  GetValue one_layer 0 0 1 = Ok 5.
Proof. split; [apply wrap_sound; left; split; [apply full_one|reflexivity]|]. split; [left; split; [apply full_two|reflexivity]|]. split; reflexivity. Qed.

(** *** C74: copies that go wrong *)
(** Statistics asked of both rasters: the copy throws. *)
Theorem C74_throws : forall T D dNODATA (tNODATA tDefault : T) type_in_options junkT junkZ junkD (t src : robj T D),
  sound src -> o_scalc src = true -> r_is2d (o_r src) = true ->
  holding (o_r t) -> r_init (o_r t) = true -> o_scalc t = true -> r_is2d (o_r t) = true ->
  Copy dNODATA tNODATA tDefault type_in_options junkT junkZ junkD t src = Throw.
Proof. intros. apply Copy_stats_throw; auto. exact (fun _ _ => true). Qed.
Print Assumptions C74_throws.

(** Statistics asked of the target only: the cells are copied, but the copy never
    delivers statistics; every query answers the default value. *)
Theorem C74_no_statistics : forall T D (feqD : D -> D -> bool) dNODATA (tNODATA tDefault : T) type_in_options junkT junkZ junkD (t src : robj T D) basic1 basic2,
  sound src -> o_scalc src = false -> r_is2d (o_r src) = true ->
  holding (o_r t) -> r_init (o_r t) = true -> o_scalc t = true -> r_is2d (o_r t) = true ->
  exists o, Copy dNODATA tNODATA tDefault type_in_options junkT junkZ junkD t src = Ok o /\ same_cells (o_r src) (o_r o) /\   forall name lyr, GetStatistics feqD dNODATA basic1 basic2 o name lyr = Ok (o, o_default src).
Proof. intros. apply Copy_stats_lost; auto. Qed.
Print Assumptions C74_no_statistics.

(** A source all of whose cells are NoData. *)
Theorem C74_all_nodata : forall T D dNODATA (tNODATA tDefault : T) type_in_options junkT junkZ junkD (t src : robj T D),
  emptied (o_r src) -> holding (o_r t) -> r_init (o_r t) = true ->
  Copy dNODATA tNODATA tDefault type_in_options junkT junkZ junkD t src = UB.
Proof. intros. apply Copy_emptied; auto. exact (fun _ _ => true). Qed.
Print Assumptions C74_all_nodata.

(** An object copied onto itself: undefined, or the cells are those of a new
    array ([junkT]), whatever it was. *)
Theorem C74_self : forall T D dNODATA (tNODATA tDefault : T) type_in_options junkT junkZ junkD (o : robj T D),
  holding (o_r o) -> r_init (o_r o) = true ->
  if r_is2d (o_r o) || r_calc (o_r o)
  then CopySelf dNODATA tNODATA tDefault type_in_options junkT junkZ junkD o = UB
  else exists o', CopySelf dNODATA tNODATA tDefault type_in_options junkT junkZ junkD o = Ok o' /\        r_data (o_r o') = Some (junkT (Z.to_nat (r_ncells (o_r o)))).
Proof.
  intros T D dNODATA tNODATA tDefault tio junkT junkZ junkD o Hh Hi.
  destruct (r_is2d (o_r o)) eqn:E2; [apply CopySelf_layers; auto; exact (fun _ _ => true)|]. destruct (r_calc (o_r o)) eqn:C.
  - apply CopySelf_positions; auto; exact (fun _ _ => true).
  - apply CopySelf_single; auto; exact (fun _ _ => true).
Qed.
Print Assumptions C74_self.

Definition basic_dummy2 (d : list (list Z)) (n l : Z) (nd : Z) : outcome (list (list Z)) := Ok (repeat (repeat n (Z.to_nat l)) 6).
Definition basic_dummy1 (d : list Z) (n : Z) (nd : Z) : outcome (list Z) := Ok (repeat n 6).
Definition asked : robj Z Z := ok_or (CalculateStatistics 0 basic_dummy1 basic_dummy2 (wrap two_layers 0)) (wrap two_layers 0).
Example C74_ex : o_scalc asked = true /\ r_is2d (o_r asked) = true /\ o_r asked = two_layers /\
  Copy 0 0 0 (fun _ => 0) (repeat 0) (repeat 0) (repeat 0) asked asked = Throw /\
  (exists o, Copy 0 0 0 (fun _ => 0) (repeat 0) (repeat 0) (repeat 0) (wrap two_layers 0) asked = Ok o) /\
  (exists o', CopySelf 0 0 0 (fun _ => 0) (repeat 0) (repeat 0) (repeat 0) (wrap one_layer 0) = Ok o' /\ r_data (o_r o') = Some [0; 0; 0; 0]).
Proof.
  split; [reflexivity|]. split; [reflexivity|]. split; [reflexivity|]. split; [vm_compute; reflexivity|].
  split; eexists; [|split]; vm_compute; reflexivity.
Qed.
Example C74_ex_sound : sound asked.
Proof.
  destruct C38_ex as (_ & (H1 & _) & _). split; [exact H1|]. split; [|split; [constructor|split; [constructor|repeat constructor; intros []]]].
  split.
  - replace (o_stats asked) with (o_stats (wrap two_layers 0)) by (vm_compute; reflexivity). exact (initial_named_stats 0 0 0).
  - intros _. split.
    + split; [vm_compute; repeat constructor; cbn; intuition discriminate|]. intros k. vm_compute. tauto.
    + intros k p I. change (o_scalc asked) with true. cbv iota. vm_compute in I.
      repeat match goal with H : _ \/ _ |- _ => destruct H as [H|H] | H : (_, _) = (_, _) |- _ => injection H as <- <- | H : False |- _ => destruct H end;
      eexists; split; reflexivity.
Qed.

(** *** C39: statistics *)
(** First query: the figure of that name describing the cells of the layer. *)
Theorem C39_fresh : forall feq sqrt feqD dNODATA t1 t2 (o : robj Q (option Q)) name lyr vals,
  stats_ok o -> o_scalc o = false -> ready t1 t2 o -> layer_ok (o_r o) lyr ->
  In (GetUpper name) stats_names -> layer_values (o_r o) lyr vals ->
  exists o' v st,
    GetStatistics feqD dNODATA (basic1Q feq sqrt t1) (basic2Q feq sqrt t2) o name lyr = Ok (o', v) /\
    figure st (GetUpper name) = Some v /\ describes feq sqrt (r_nodata (o_r o)) vals st /\
    o_scalc o' = true /\ stats_ok o' /\ o_r o' = o_r o.
Proof. intros. eapply Get_fresh; eauto. Qed.
Print Assumptions C39_fresh.

(** After UpdateStatistics: again those of the cells, whatever was asked before. *)
Theorem C39_update : forall feq sqrt feqD dNODATA t1 t2 (o : robj Q (option Q)) name lyr vals,
  stats_ok o -> ready t1 t2 o -> layer_ok (o_r o) lyr ->
  In (GetUpper name) stats_names -> layer_values (o_r o) lyr vals ->
  exists o' v st,
    UpdateStatistics dNODATA (basic1Q feq sqrt t1) (basic2Q feq sqrt t2) o = Ok o' /\
    GetStatistics feqD dNODATA (basic1Q feq sqrt t1) (basic2Q feq sqrt t2) o' name lyr = Ok (o', v) /\
    figure st (GetUpper name) = Some v /\ describes feq sqrt (r_nodata (o_r o)) vals st /\
    o_scalc o' = true /\ stats_ok o' /\ o_r o' = o_r o.
Proof. intros. eapply Get_updated; eauto. Qed.
Print Assumptions C39_update.

(** Once asked, the answers stay through every history of SetValue and
    ReplaceNoData (any way the loops of later queries run). *)
Theorem C39_stale : forall T D feq (feqD : D -> D -> bool) dNODATA basic1 basic1' basic2 basic2' (o : robj T D) ops r' name lyr o1 v,
  stats_ok o -> o_scalc o = true -> ValidateRasterData (o_r o) = true ->
  forallb is_update ops = true -> op_run feq ops (o_r o) r' ->
  GetStatistics feqD dNODATA basic1 basic2 o name lyr = Ok (o1, v) ->
  GetStatistics feqD dNODATA basic1' basic2' (set_r o r') name lyr = Ok (set_r o r', v).
Proof.
  intros T D feq feqD dNODATA b1 b1' b2 b2' o ops r' name lyr o1 v Hok Hs HV Hu HR HG.
  destruct (run_alive feq ops _ _ Hu HR) as (A & B & C). eapply Get_stale; eauto; congruence.
Qed.
Print Assumptions C39_stale.

(** The variant delivering all layers delivers nothing for any raster with data. *)
Theorem C39_array_never : forall T D (dNODATA : D) basic1 basic2 (o : robj T D) name,
  ValidateRasterData (o_r o) = true ->
  GetStatisticsArray dNODATA basic1 basic2 o name = Ok (o, None, None).
Proof. intros. now apply GetArray_never. Qed.
Print Assumptions C39_array_never.

Definition qraster : raster Q := FromArray (Some [1%Q; 2%Q; 5%Q]) 3 1 (-9)%Q 0%Q 1%Q 0%Q 0%Q.
Definition nofeq (a b : option Q) : bool := match a, b with Some x, Some y => Qeq_bool x y | _, _ => false end.
Definition get (t : team) (o : robj Q (option Q)) (name : bytes) : outcome (robj Q (option Q) * option Q) :=
  GetStatistics nofeq (Some (-9999)%Q) (basic1Q Qeq_bool (fun x => x) t) (basic2Q Qeq_bool (fun x => x) (fun _ => t)) o name 1.
Definition qobj : robj Q (option Q) := wrap qraster (Some (-9999)%Q).
Definition qasked : robj Q (option Q) := fst (ok_or (get (Thread [0; 1; 2]%nat) qobj (str "max")) (qobj, None)).
Definition qset : raster Q := ok_or (SetValue qraster 0 0 9%Q 1) qraster.

Example C39_ex : stats_ok qobj /\ o_scalc qobj = false /\ ready (Thread [0; 1; 2]%nat) (fun _ => Thread [0; 1; 2]%nat) qobj /\
  layer_ok (o_r qobj) 1 /\ In (GetUpper (str "max")) stats_names /\ layer_values (o_r qobj) 1 [1%Q; 2%Q; 5%Q].
Proof.
  split; [|split; [reflexivity|split]].
  - apply (wrap_sound qraster (Some (-9999)%Q)). left. split; [|reflexivity]. unfold full_grid, storage; cbn. repeat split; try lia. eexists; split; reflexivity.
  - unfold ready, covers, storage; cbn. split; [split; [reflexivity|eexists; split; reflexivity]|]. split; [lia|]. split; [lia|]. split; [|intros _ _]; apply Permutation_refl.
  - split; [unfold layer_ok; cbn; lia|]. split; [vm_compute; tauto|]. unfold layer_values. cbn. repeat constructor.
Qed.

(** Without UpdateStatistics the claim fails: the largest cell is 9, the answer 5. *)
Theorem C39_refuted : exists (o : robj Q (option Q)) r', stats_ok o /\ o_scalc o = true /\ SetValue (o_r o) 0 0 9%Q 1 = Ok r' /\
  GetValue r' 0 0 1 = Ok 9%Q /\ (exists o', get (Thread [0; 1; 2]%nat) (set_r o r') (str "MAX") = Ok (o', Some 5%Q)) /\
  exists o', UpdateStatistics (Some (-9999)%Q) (basic1Q Qeq_bool (fun x => x) (Thread [0; 1; 2]%nat))
      (basic2Q Qeq_bool (fun x => x) (fun _ => Thread [0; 1; 2]%nat)) (set_r o r') = Ok o' /\
    exists o'', get (Thread [0; 1; 2]%nat) o' (str "MAX") = Ok (o'', Some 9%Q).
Proof.
  exists qasked, qset. split.
  - destruct C39_ex as (H & Hs & Hr & Hl & I & HV). destruct (C39_fresh Qeq_bool (fun x => x) nofeq (Some (-9999)%Q) _ _ qobj (str "max") 1 _ H Hs Hr Hl I HV) as (o' & v & st & E & _ & _ & _ & K & _).
    unfold qasked, get. rewrite E. exact K.
  - split; [vm_compute; reflexivity|]. split; [vm_compute; reflexivity|]. split; [vm_compute; reflexivity|].
    split; [eexists; vm_compute; reflexivity|]. eexists. split; [vm_compute; reflexivity|]. eexists. vm_compute. reflexivity.
Qed.
Print Assumptions C39_refuted.

(** *** C40: a mask and values *)
(** What the object holds: the header of the mask, the values in the order given,
    and the query by row and column takes value number row * cols + col. *)
Theorem C40_content : forall T D M (dNODATA : D) (tNODATA tDefault : T) junkT feqM castM mdefault (mask : raster M) ix ord1 ord2 vals,
  valid_cells feqM mask ix -> schedule (Z.of_nat (length ix)) ord1 -> length vals = length ix ->
  exists mask' r, FromMask1D dNODATA tNODATA tDefault junkT feqM castM mdefault ord1 ord2 mask (Some vals) (Z.of_nat (length vals)) = Ok (mask', r) /\
    compact mask' ix /\ same_header castM mask r /\
    (forall i, 0 <= i < Z.of_nat (length vals) -> GetValueByIndex r i 1 = aget vals i) /\
    (forall row col, inside r row col -> GetValue r row col 1 = aget vals (row * r_cols r + col)).
Proof. intros. now apply mask_content. Qed.
Print Assumptions C40_content.

Theorem C40_content_layers : forall T D M (dNODATA : D) (tNODATA tDefault : T) feqM castM (mask : raster M) ix ord1 ord2 vals lyrs,
  valid_cells feqM mask ix -> schedule (Z.of_nat (length ix)) ord1 -> length vals = length ix ->
  1 <= lyrs -> Forall (fun c => Z.of_nat (length c) = lyrs) vals ->
  exists mask' r, FromMask2D dNODATA tNODATA tDefault feqM castM ord1 ord2 mask (Some vals) (Z.of_nat (length vals)) lyrs = Ok (mask', r) /\
    compact mask' ix /\ same_header castM mask r /\ r_nlyrs r = lyrs /\
    (forall i l, 0 <= i < Z.of_nat (length vals) -> 1 <= l <= lyrs -> GetValueByIndex r i l = (let* c := aget vals i in aget c (l - 1))) /\
    (forall row col l, inside r row col -> 1 <= l <= lyrs -> GetValue r row col l = (let* c := aget vals (row * r_cols r + col) in aget c (l - 1))).
Proof. intros. apply (mask_content2 dNODATA tNODATA tDefault (fun _ => []) feqM castM (fun _ => tNODATA)); auto. Qed.
Print Assumptions C40_content_layers.

(** A mask without NoData cells: the values of the cells. *)
Theorem C40_whole : forall T D M (dNODATA : D) (tNODATA tDefault : T) junkT feqM castM mdefault (mask : raster M) ix ord1 ord2 vals mask' r,
  valid_cells feqM mask ix -> schedule (Z.of_nat (length ix)) ord1 -> length vals = length ix ->
  Z.of_nat (length ix) = r_rows mask * r_cols mask ->
  FromMask1D dNODATA tNODATA tDefault junkT feqM castM mdefault ord1 ord2 mask (Some vals) (Z.of_nat (length vals)) = Ok (mask', r) ->
  forall k cell v, nth_error ix k = Some cell -> nth_error vals k = Some v ->
    GetValue r (cell / r_cols mask) (cell mod r_cols mask) 1 = Ok v.
Proof.
  intros T D M dN tN tD junkT feqM castM mdefault mask ix ord1 ord2 vals mask' r HV HS HL HW E k cell v Hk Hv.
  destruct (mask_content dN tN tD junkT feqM castM mdefault mask ix ord1 ord2 vals HV HS HL) as (m' & r' & E' & Hc & (R1 & R2 & _) & _ & HG).
  rewrite E in E'. injection E' as <- <-.
  assert (Hix : StronglySorted Z.lt ix /\ Forall (fun k => 0 <= k < r_rows mask * r_cols mask) ix /\ 0 < r_rows mask /\ 0 < r_cols mask).
  { destruct HV as [(A & B & _ & _ & _ & _ & _ & _ & _ & S & F)|((A & B & _) & _ & S & F & _)]; auto. }
  destruct Hix as (S & F & A & B).
  assert (Ez : ix = zseq (r_rows mask * r_cols mask)).
  { apply sorted_same; [exact S|apply StronglySorted_zseq|]. rewrite Forall_forall in F.
    assert (X : incl ix (zseq (r_rows mask * r_cols mask))) by (intros x I; apply zseq_In; auto).
    assert (Y : incl (zseq (r_rows mask * r_cols mask)) ix).
    { apply NoDup_length_incl; [|rewrite zseq_length; lia|exact X].
      clear - S. induction S as [|a l S IH Fa]; constructor; auto. intros I. rewrite Forall_forall in Fa. specialize (Fa _ I). lia. }
    intros x. split; [apply X|apply Y]. }
  assert (Ek : cell = Z.of_nat k /\ 0 <= cell < r_rows mask * r_cols mask).
  { split; [|rewrite Forall_forall in F; apply F; eapply nth_error_In; eauto]. rewrite Ez in Hk.
    assert (Lk : (k < length (zseq (r_rows mask * r_cols mask)))%nat) by (apply nth_error_Some; congruence).
    rewrite zseq_nth_nat in Hk by (rewrite zseq_length in Lk; lia). congruence. }
  destruct Ek as (Ek & Bk). rewrite HG, R2.
  - replace (cell / r_cols mask * r_cols mask + cell mod r_cols mask) with cell by (rewrite Z.mul_comm; apply Z.div_mod; lia).
    unfold aget. replace (cell <? 0) with false by lia. rewrite Ek, Nat2Z.id, Hv. reflexivity.
  - unfold inside. rewrite R1, R2. split; [split; [apply Z.div_pos; lia|apply Z.div_lt_upper_bound; lia]|apply Z.mod_pos_bound; lia].
Qed.
Print Assumptions C40_whole.

(** Every mask with a NoData cell: reading the last cell is out of bounds, and
    cell number [cell] shows value number [cell], not its own value number [k]. *)
Theorem C40_refuted : forall T D M (dNODATA : D) (tNODATA tDefault : T) junkT feqM castM mdefault (mask : raster M) ix ord1 ord2 vals,
  valid_cells feqM mask ix -> schedule (Z.of_nat (length ix)) ord1 -> length vals = length ix ->
  Z.of_nat (length ix) < r_rows mask * r_cols mask ->
  exists mask' r, FromMask1D dNODATA tNODATA tDefault junkT feqM castM mdefault ord1 ord2 mask (Some vals) (Z.of_nat (length vals)) = Ok (mask', r) /\
    GetValue r (r_rows mask - 1) (r_cols mask - 1) 1 = UB /\
    forall k cell v, nth_error ix k = Some cell -> nth_error vals (Z.to_nat cell) = Some v ->
      GetValue r (cell / r_cols mask) (cell mod r_cols mask) 1 = Ok v.
Proof.
  intros T D M dN tN tD junkT feqM castM mdefault mask ix ord1 ord2 vals HV HS HL HW.
  destruct (mask_content dN tN tD junkT feqM castM mdefault mask ix ord1 ord2 vals HV HS HL) as (m' & r & E & Hc & (R1 & R2 & _) & _ & HG).
  assert (Hix : Forall (fun k => 0 <= k < r_rows mask * r_cols mask) ix /\ 0 < r_rows mask /\ 0 < r_cols mask).
  { destruct HV as [(A & B & _ & _ & _ & _ & _ & _ & _ & S & F)|((A & B & _) & _ & S & F & _)]; auto. }
  destruct Hix as (F & A & B).
  exists m', r. split; [exact E|]. split.
  - rewrite HG by (unfold inside; lia). rewrite R2. unfold aget.
    replace ((r_rows mask - 1) * r_cols mask + (r_cols mask - 1)) with (r_rows mask * r_cols mask - 1) by lia.
    replace (r_rows mask * r_cols mask - 1 <? 0) with false by nia.
    destruct (nth_error vals _) eqn:N; [|reflexivity]. exfalso.
    assert (X : (Z.to_nat (r_rows mask * r_cols mask - 1) < length vals)%nat) by (apply nth_error_Some; congruence). lia.
  - intros k cell v Hk Hv. rewrite Forall_forall in F. specialize (F _ (nth_error_In _ _ Hk)). rewrite HG, R2.
    + replace (cell / r_cols mask * r_cols mask + cell mod r_cols mask) with cell by (rewrite Z.mul_comm; apply Z.div_mod; lia).
      unfold aget. replace (cell <? 0) with false by lia. rewrite Hv. reflexivity.
    + unfold inside. rewrite R1, R2. split; [split; [apply Z.div_pos; lia|apply Z.div_lt_upper_bound; lia]|apply Z.mod_pos_bound; lia].
Qed.
Print Assumptions C40_refuted.

(** A wrong number of values: an object without data. *)
Theorem C40_length : forall T D M (dNODATA : D) (tNODATA tDefault : T) junkT feqM castM mdefault (mask mask' : raster M) ord1 ord2 vals len r,
  FromMask1D dNODATA tNODATA tDefault junkT feqM castM mdefault ord1 ord2 mask vals len = Ok (mask', r) -> r_ncells r <> len ->
  (forall row col lyr, GetValue r row col lyr = Ok (r_nodata r)) /\ r_init r = false.
Proof.
  intros. destruct (FromMask1D_length dNODATA tNODATA tDefault junkT feqM castM mdefault mask mask' ord1 ord2 vals len r) as (V & I); auto.
  split; [|exact I]. intros. unfold GetValue. rewrite V. reflexivity.
Qed.
Print Assumptions C40_length.

Example C40_ex : valid_cells Z.eqb one_dropped [0; 2; 3] /\ valid_cells Z.eqb one_layer [0; 2; 3] /\
  exists m r, FromMask1D 0 0 0 (repeat 0) Z.eqb (fun x => x) (fun x => x) [1; 0; 2]%nat [] one_layer (Some [10; 20; 30]) 3 = Ok (m, r) /\
    GetValue r 0 0 1 = Ok 10 /\ GetValue r 0 1 1 = Ok 20 /\ GetValue r 1 0 1 = Ok 30 /\ GetValue r 1 1 1 = UB.
Proof.
  split; [left; apply compact_one|]. split.
  - right. split; [apply full_one|]. split; [discriminate|]. split; [repeat constructor|].
    split; [repeat (apply Forall_cons; [cbn; lia|]); constructor|].
    intros row col (R & C). change (r_rows one_layer) with 2 in R. change (r_cols one_layer) with 2 in *.
    assert (E : (row = 0 \/ row = 1) /\ (col = 0 \/ col = 1)) by lia. destruct E as [[-> | ->] [-> | ->]]; cbn; split; intros I;
      try (eexists; split; reflexivity); try tauto; try lia.
    destruct I as (x & E & F). injection E as <-. discriminate.
  - eexists. eexists. split; [vm_compute; reflexivity|]. repeat split.
Qed.
