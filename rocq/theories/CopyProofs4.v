(** Copies that go wrong; updates after which statistics are out of date;
    rasters built from a mask and values. *)
From Coq Require Import ZArith QArith List Bool Lia String Sorted Permutation.
From Verif Require Import Base StrModel MapModel MapProofs RasterModel RasterSpec ListLib RasterProofs RasterProofs2 RasterProofs3
  SubsetModel SubsetProofs CopyModel CopySpec CopyProofs CopyProofs2 CopyProofs3.
Import List ListNotations.
Open Scope Z_scope.
Open Scope outcome_scope.

Section Bad.
Context {T D : Type}.
Variable feqD : D -> D -> bool.
Variable dNODATA : D.
Variable tNODATA tDefault : T.
Variable type_in_options : smap bytes -> Z.
Variable junkT : nat -> list T.
Variable junkZ : nat -> list Z.
Variable junkD : nat -> list D.
Local Notation obj := (robj T D).
Local Notation Copy := (Copy dNODATA tNODATA tDefault type_in_options junkT junkZ junkD).
Local Notation CopySelf := (CopySelf dNODATA tNODATA tDefault type_in_options junkT junkZ junkD).
Local Notation CopyFill := (CopyFill dNODATA tNODATA tDefault type_in_options junkT junkZ junkD).

Lemma holding_pos (r : raster T) : holding r -> r_pos r <> Some [].
Proof.
  intros [[H _]|(ix & H)].
  - destruct H as (_ & _ & _ & _ & _ & H & _). congruence.
  - destruct H as (_ & _ & _ & H & L & _ & _ & _ & P & _). rewrite P. destruct ix; cbn in *; [lia|discriminate].
Qed.

(** The release phase on a target that holds cells. *)
Lemma CopyRelease_ok (t : obj) : holding (o_r t) ->
  exists o1, CopyRelease t = Ok o1 /\ o_subset o1 = [] /\ o_scalc o1 = false /\ o_stats o1 = o_stats t /\
    o_stats2 o1 = (if o_scalc t then [] else o_stats2 t) /\
    r_is2d (o_r o1) = r_is2d (o_r t) /\ r_init (o_r o1) = r_init (o_r t) /\ r_pos (o_r o1) = None /\ r_posidx (o_r o1) = None /\
    (if r_is2d (o_r t) then r_data2d (o_r o1) = None else r_data (o_r o1) = None) /\
    r_calc (o_r o1) = r_calc (o_r t) /\ r_ncells (o_r o1) = r_ncells (o_r t) /\ o_opts o1 = o_opts t.
Proof.
  intros H. destruct (holding_storage _ H) as (St & Hn & Hl). pose proof (holding_pos _ H) as Hp.
  unfold CopyRelease.
  assert (Er : release2d (r_pos (o_r t)) = Ok tt) by (destruct (r_pos (o_r t)) as [[|]|]; cbn; congruence).
  unfold storage in St. destruct (r_is2d (o_r t)) eqn:E2.
  - destruct St as (d & Ed & Ld & _). rewrite Ed. replace (0 <? r_ncells (o_r t)) with true by lia. cbn [isnull negb andb].
    destruct d as [|c d]; [cbn in Ld; lia|]. cbn [release2d obind]. rewrite Er. cbn [obind].
    eexists. split; [reflexivity|]. cbn [o_scalc set_r].
    destruct (o_scalc t) eqn:Sc; cbn; rewrite ?E2; repeat split; auto.
  - cbn [andb obind]. rewrite Er. cbn [obind negb]. eexists. split; [reflexivity|]. cbn [o_scalc set_r].
    destruct (o_scalc t) eqn:Sc; cbn; rewrite ?E2; repeat split; auto.
Qed.

Lemma read_function_keeps (o : obj) path calc mask ext df dfT opts : r_init (o_r o) = true ->
  let o1 := InitializeReadFunction dNODATA tNODATA tDefault type_in_options o path calc mask ext df dfT opts in
  r_data (o_r o1) = r_data (o_r o) /\ r_data2d (o_r o1) = r_data2d (o_r o) /\ r_pos (o_r o1) = r_pos (o_r o) /\
  r_posidx (o_r o1) = r_posidx (o_r o) /\ r_is2d (o_r o1) = r_is2d (o_r o) /\ o_stats2 o1 = o_stats2 o /\
  o_stats o1 = o_stats o /\ r_calc (o_r o1) = calc /\ o_default o1 = df.
Proof. intros H. cbv zeta. unfold InitializeReadFunction. rewrite H. cbn. repeat split. Qed.

Lemma pos_part (rs r : raster T) : holding rs -> r_pos r = None -> r_posidx r = None ->
  (if r_calc rs
   then let* p := copy_pos (r_pos r) (r_ncells rs) (r_pos rs) in
        let* ix := copy1d junkZ (r_posidx r) (r_ncells rs) (r_posidx rs) in Ok (p, ix)
   else Ok (r_pos r, r_posidx r)) = Ok (r_pos rs, r_posidx rs).
Proof.
  intros Hh Hp Hpi. rewrite Hp, Hpi. destruct Hh as [[(_ & _ & _ & _ & _ & P1 & P2) C]|(ix & _ & _ & _ & Hn & Ln & _ & C & P2 & P1 & _)].
  - rewrite C, P1, P2. reflexivity.
  - rewrite C, P1, P2, copy_pos_same, copy1d_same; [reflexivity|lia|rewrite map_length; lia|lia].
Qed.

(** A single-layer raster copied over a multi-layer one cannot be read. *)
Theorem Copy_layers_single (t src : obj) : sound src -> o_scalc src = false -> r_is2d (o_r src) = false ->
  holding (o_r t) -> r_init (o_r t) = true -> r_is2d (o_r t) = true ->
  exists o, Copy t src = Ok o /\ ValidateRasterData (o_r o) = false /\
    forall row col lyr, GetValue (o_r o) row col lyr = Ok (r_nodata (o_r src)).
Proof.
  intros (Hh & _ & Fs & NDs & _) Sc E1 Ht Hi E2.
  destruct (CopyRelease_ok t Ht) as (o1 & Eo & Hsub & Hsc & _ & _ & H2 & Hin & Hp & Hpi & Hd & _). rewrite E2 in *. rewrite Hi in Hin.
  unfold CopyModel.Copy. rewrite Eo. cbn [obind]. unfold CopyModel.CopyFill.
  destruct (read_function_keeps o1 (o_path src) (r_calc (o_r src)) (o_mask src) (r_maskext (o_r src)) (o_default src) (r_default (o_r src)) (o_opts src) Hin)
    as (R1 & R2 & R3 & R4 & R5 & _). cbv zeta in R1, R2, R3, R4, R5.
  rewrite E1. destruct (holding_storage _ Hh) as (St & Hn & _). unfold storage in St. rewrite E1 in St. destruct St as (_ & d & Ed & Ld).
  rewrite pos_part; [|exact Hh|congruence|congruence].
  assert (C1 : exists x, copy1d junkT (r_data (o_r (InitializeReadFunction dNODATA tNODATA tDefault type_in_options o1 (o_path src) (r_calc (o_r src)) (o_mask src) (r_maskext (o_r src)) (o_default src) (r_default (o_r src)) (o_opts src)))) (r_ncells (o_r src)) (r_data (o_r src)) = Ok x).
  { rewrite R1, Ed. destruct (r_data (o_r o1)); [eexists; reflexivity|]. rewrite copy1d_same by auto. eauto. }
  destruct C1 as (x & ->). cbn [obind fst snd]. unfold CopyStats. rewrite Sc. cbn [obind].
  destruct (deep_fold_ok junkZ junkD (o_subset src) [] Fs NDs (SSorted_nil _)) as (m & Em & _). unfold deep_fold in Em. rewrite Em. cbn [obind].
  eexists. split; [reflexivity|]. cbn [o_r set_subset set_stats].
  match goal with |- ValidateRasterData ?a = false /\ _ => assert (V : ValidateRasterData a = false) end.
  { unfold ValidateRasterData. cbn [r_is2d r_data r_data2d]. rewrite R5, H2. cbn [negb andb orb]. rewrite R2, Hd. reflexivity. }
  split; [exact V|]. intros. unfold GetValue. rewrite V. reflexivity.
Qed.

(** Statistics asked of both: the copy throws. *)
Theorem Copy_stats_throw (t src : obj) : sound src -> o_scalc src = true -> r_is2d (o_r src) = true ->
  holding (o_r t) -> r_init (o_r t) = true -> o_scalc t = true -> r_data2d (o_r t) = None \/ r_is2d (o_r t) = true ->
  Copy t src = Throw.
Proof.
  intros (Hh & (_ & Hs) & Fs & NDs & _) Sc E1 Ht Hi St2 Hd2.
  destruct (CopyRelease_ok t Ht) as (o1 & Eo & Hsub & Hsc & _ & Hst2 & H2 & Hin & Hp & Hpi & Hd & _). rewrite Hi in Hin. rewrite St2 in Hst2.
  assert (D2 : r_data2d (o_r o1) = None).
  { destruct (r_is2d (o_r t)) eqn:Et; [exact Hd|]. destruct Hd2 as [Hd2|]; [|congruence].
    unfold CopyRelease in Eo. rewrite Et, Hd2 in Eo. cbn [andb obind negb] in Eo.
    destruct (release2d (r_pos (o_r t))); cbn [obind] in Eo; try discriminate. cbn [o_scalc set_r] in Eo. rewrite St2 in Eo. injection Eo as <-. reflexivity. }
  unfold CopyModel.Copy. rewrite Eo. cbn [obind]. unfold CopyModel.CopyFill.
  destruct (read_function_keeps o1 (o_path src) (r_calc (o_r src)) (o_mask src) (r_maskext (o_r src)) (o_default src) (r_default (o_r src)) (o_opts src) Hin)
    as (R1 & R2 & R3 & R4 & R5 & R6 & _). cbv zeta in R1, R2, R3, R4, R5, R6.
  rewrite E1. destruct (holding_storage _ Hh) as (St & Hn & Hl). unfold storage in St. rewrite E1 in St. destruct St as (d & Ed & Ld & F).
  rewrite pos_part; [|exact Hh|congruence|congruence].
  rewrite R2, D2, Ed, copy2d_same by (auto; lia). cbn [obind fst snd]. unfold CopyStats. rewrite Sc. cbn [o_r r_is2d r_nlyrs o_stats2].
  rewrite R6, Hst2. destruct (Hs E1) as (N2 & Hall). destruct (named_cons _ N2) as ((k & p) & tl & Ek). rewrite Ek in *.
  specialize (Hall k p (or_introl eq_refl)). rewrite Sc in Hall. destruct Hall as (l & -> & Ll). cbn [ofold fst snd]. rewrite copy1d_same by auto. reflexivity.
Qed.

(** Statistics asked of the target only: the copy never delivers any. *)
Theorem Copy_stats_lost (t src : obj) basic1 basic2 : sound src -> o_scalc src = false -> r_is2d (o_r src) = true ->
  holding (o_r t) -> r_init (o_r t) = true -> o_scalc t = true -> r_data2d (o_r t) = None \/ r_is2d (o_r t) = true ->
  exists o, Copy t src = Ok o /\ same_cells (o_r src) (o_r o) /\
    forall name lyr, GetStatistics feqD dNODATA basic1 basic2 o name lyr = Ok (o, o_default src).
Proof.
  intros (Hh & _ & Fs & NDs & _) Sc E1 Ht Hi St2 Hd2.
  destruct (CopyRelease_ok t Ht) as (o1 & Eo & Hsub & Hsc & _ & Hst2 & H2 & Hin & Hp & Hpi & Hd & _). rewrite Hi in Hin. rewrite St2 in Hst2.
  assert (D2 : r_data2d (o_r o1) = None).
  { destruct (r_is2d (o_r t)) eqn:Et; [exact Hd|]. destruct Hd2 as [Hd2|]; [|congruence].
    unfold CopyRelease in Eo. rewrite Et, Hd2 in Eo. cbn [andb obind negb] in Eo.
    destruct (release2d (r_pos (o_r t))); cbn [obind] in Eo; try discriminate. cbn [o_scalc set_r] in Eo. rewrite St2 in Eo. injection Eo as <-. reflexivity. }
  unfold CopyModel.Copy. rewrite Eo. cbn [obind]. unfold CopyModel.CopyFill.
  destruct (read_function_keeps o1 (o_path src) (r_calc (o_r src)) (o_mask src) (r_maskext (o_r src)) (o_default src) (r_default (o_r src)) (o_opts src) Hin)
    as (R1 & R2 & R3 & R4 & R5 & R6 & _ & R7 & R8). cbv zeta in R1, R2, R3, R4, R5, R6, R7, R8.
  rewrite E1. destruct (holding_storage _ Hh) as (St & Hn & Hl). unfold storage in St. rewrite E1 in St. destruct St as (d & Ed & Ld & F).
  rewrite pos_part; [|exact Hh|congruence|congruence].
  rewrite R2, D2, Ed, copy2d_same by (auto; lia). cbn [obind fst snd]. unfold CopyStats. rewrite Sc. cbn [obind].
  destruct (deep_fold_ok junkZ junkD (o_subset src) [] Fs NDs (SSorted_nil _)) as (m & Em & _). unfold deep_fold in Em. rewrite Em. cbn [obind].
  eexists. split; [reflexivity|]. split.
  - cbn [o_r set_subset set_stats]. apply same_cells_intro; cbn [r_is2d r_data r_data2d r_pos r_posidx r_calc r_rows r_cols r_xll r_yll r_cs r_hnodata r_hcells r_hlyrs r_ncells r_nlyrs r_nodata r_default]; auto.
    rewrite E1. auto. 

  - intros name lyr. unfold GetStatistics. cbn [o_r set_subset set_stats o_stats2 o_default].
    match goal with |- (if ?c then _ else _) = _ => destruct c end; [rewrite R8; reflexivity|].
    cbn [r_is2d r_data2d isnull negb andb]. rewrite R6, Hst2. cbn [lookup]. rewrite R8. reflexivity.
Qed.

(** Copying a raster all of whose cells were NoData. *)
Theorem Copy_emptied (t src : obj) : emptied (o_r src) -> holding (o_r t) -> r_init (o_r t) = true -> Copy t src = UB.
Proof.
  intros He Ht Hi. destruct (CopyRelease_ok t Ht) as (o1 & Eo & _ & _ & _ & _ & _ & Hin & _). rewrite Hi in Hin.
  unfold CopyModel.Copy. rewrite Eo. cbn [obind]. unfold CopyModel.CopyFill.
  destruct He as (_ & _ & _ & Hn & Hc & Hp & Hpi & Hd). rewrite Hc, Hp, Hn.
  destruct (r_is2d (o_r src)).
  - rewrite Hd. reflexivity.
  - destruct Hd as (_ & Hd). rewrite Hd. match goal with |- context[copy1d junkT ?p 0 None] => destruct p end; reflexivity.
Qed.

(** Copying an object onto itself. *)
Theorem CopySelf_layers (o : obj) : holding (o_r o) -> r_init (o_r o) = true -> r_is2d (o_r o) = true -> CopySelf o = UB.
Proof.
  intros Ht Hi E2. destruct (CopyRelease_ok o Ht) as (o1 & Eo & _ & _ & _ & _ & H2 & Hin & _ & _ & Hd & _).
  unfold CopyModel.CopySelf. rewrite Eo. cbn [obind]. unfold CopyModel.CopyFill. rewrite H2, E2 in *. rewrite Hd. reflexivity.
Qed.
Theorem CopySelf_positions (o : obj) : holding (o_r o) -> r_init (o_r o) = true -> r_calc (o_r o) = true -> CopySelf o = UB.
Proof.
  intros Ht Hi C. destruct (r_is2d (o_r o)) eqn:E2; [apply CopySelf_layers; auto|].
  destruct (CopyRelease_ok o Ht) as (o1 & Eo & _ & _ & _ & _ & H2 & Hin & Hp & Hpi & Hd & Hc & Hn & _). rewrite E2 in Hd.
  unfold CopyModel.CopySelf. rewrite Eo. cbn [obind]. unfold CopyModel.CopyFill. rewrite H2, E2, Hc, C, Hd, Hp.
  destruct (read_function_keeps o1 (o_path o1) true (o_mask o1) (r_maskext (o_r o1)) (o_default o1) (r_default (o_r o1)) (o_opts o1)) as (R1 & _); [congruence|].
  cbv zeta in R1. rewrite R1, Hd. unfold copy1d at 1. destruct (holding_storage _ Ht) as (_ & Hn' & _). replace (r_ncells (o_r o1) <? 0) with false by lia. reflexivity.
Qed.
Theorem CopySelf_single (o : obj) : holding (o_r o) -> r_init (o_r o) = true -> r_is2d (o_r o) = false -> r_calc (o_r o) = false ->
  exists o', CopySelf o = Ok o' /\ r_data (o_r o') = Some (junkT (Z.to_nat (r_ncells (o_r o)))).
Proof.
  intros Ht Hi E2 C. destruct (CopyRelease_ok o Ht) as (o1 & Eo & Hsub & Hsc & _ & _ & H2 & Hin & Hp & Hpi & Hd & Hc & Hn & _). rewrite E2 in Hd.
  unfold CopyModel.CopySelf. rewrite Eo. cbn [obind]. unfold CopyModel.CopyFill. rewrite H2, E2, Hc, C, Hd.
  destruct (read_function_keeps o1 (o_path o1) false (o_mask o1) (r_maskext (o_r o1)) (o_default o1) (r_default (o_r o1)) (o_opts o1)) as (R1 & _); [congruence|].
  cbv zeta in R1. rewrite R1, Hd. unfold copy1d at 1. destruct (holding_storage _ Ht) as (_ & Hn' & _). replace (r_ncells (o_r o1) <? 0) with false by lia. cbn [obind fst snd].
  unfold CopyStats. rewrite Hsc. cbn [obind]. rewrite Hsub. cbn [ofold obind]. eexists. split; [reflexivity|]. cbn [o_r set_subset set_stats r_data].
  now rewrite Hn.
Qed.
End Bad.

(** *** Updates keep what the statistics queries look at *)
Section Updates.
Context {T : Type}.
Variable feq : T -> T -> bool.

Definition alive (r r' : raster T) : Prop :=
  r_is2d r' = r_is2d r /\ r_nlyrs r' = r_nlyrs r /\ ValidateRasterData r' = ValidateRasterData r.

Lemma write_alive (r r' : raster T) i k v : write_cell r i k v = Ok r' -> alive r r'.
Proof.
  unfold write_cell, alive, ValidateRasterData. destruct (r_is2d r) eqn:E.
  - destruct (r_data2d r) as [d|]; cbn [deref obind]; [|discriminate]. destruct (aget d i) as [c| |]; cbn [obind]; try discriminate.
    destruct (aset c k v) as [c'| |]; cbn [obind]; try discriminate. destruct (aset d i c') as [d'| |]; cbn [obind]; try discriminate.
    intros H. injection H as <-. cbn. rewrite E. auto.
  - destruct (r_data r) as [d|]; cbn [deref obind]; [|discriminate]. destruct (aset d i v) as [d'| |]; cbn [obind]; try discriminate.
    intros H. injection H as <-. cbn. rewrite E. auto.
Qed.

Lemma alive_refl (r : raster T) : alive r r. Proof. repeat split. Qed.
Lemma alive_trans (a b c : raster T) : alive a b -> alive b c -> alive a c.
Proof. intros (A & B & C) (A' & B' & C'). repeat split; congruence. Qed.

Lemma ofold_alive {B} (f : raster T -> B -> outcome (raster T)) : (forall r b r', f r b = Ok r' -> alive r r') ->
  forall l r r', ofold f l r = Ok r' -> alive r r'.
Proof.
  intros H. induction l as [|b l IH]; intros r r' E; cbn [ofold] in E; [injection E as <-; apply alive_refl|].
  destruct (f r b) as [r1| |] eqn:F; cbn [obind] in E; try discriminate. eapply alive_trans; eauto.
Qed.

Lemma SetValue_alive (r r' : raster T) row col v lyr : SetValue r row col v lyr = Ok r' -> alive r r'.
Proof.
  unfold SetValue. destruct (_ || _); [intros H; injection H as <-; apply alive_refl|].
  destruct (GetPosition r row col) as [i| |]; cbn [obind]; try discriminate.
  destruct (i =? -1); [intros H; injection H as <-; apply alive_refl|apply write_alive].
Qed.

Lemma ReplaceNoData_alive (r r' : raster T) ord v : ReplaceNoData feq ord r v = Ok r' -> alive r r'.
Proof.
  unfold ReplaceNoData. destruct (ofold _ ord r) as [r1| |] eqn:E; cbn [obind]; try discriminate. intros H. injection H as <-.
  assert (A : alive r r1).
  { revert E. apply ofold_alive. intros r0 i r0'. unfold replace_step. apply ofold_alive. intros a lyr a'.
    destruct (r_is2d a && negb (isnull (r_data2d a))) eqn:E2.
    - destruct (read_cell a (Z.of_nat i) (lyr + 1)); cbn [obind]; try discriminate.
      destruct (feq _ _); [apply write_alive|intros X; injection X as <-; apply alive_refl].
    - destruct (r_data a) as [d|] eqn:Ed; cbn [deref obind]; [|discriminate]. destruct (aget d (Z.of_nat i)) as [x| |]; cbn [obind]; try discriminate.
      destruct (feq _ _); [|intros X; injection X as <-; apply alive_refl].
      destruct (aset d (Z.of_nat i) v) as [d'| |]; cbn [obind]; try discriminate. intros X. injection X as <-.
      unfold alive, ValidateRasterData. cbn. rewrite Ed. auto. }
  destruct A as (A & B & C). repeat split; auto.
Qed.

Lemma run_alive : forall ops (r r' : raster T), forallb is_update ops = true -> op_run feq ops r r' -> alive r r'.
Proof.
  induction ops as [|o ops IH]; intros r r' Hu H; inversion H as [|? ? ? r1 ? S R]; subst; [apply alive_refl|].
  cbn [forallb] in Hu. apply andb_prop in Hu. destruct Hu as [U1 U2].
  eapply alive_trans; [|eapply IH; eauto].
  inversion S; subst; try discriminate; [eapply SetValue_alive; eauto|eapply ReplaceNoData_alive; eauto].
Qed.
End Updates.

(** *** A mask and values *)
Section FromMask.
Context {T D M : Type}.
Variable dNODATA : D.
Variable tNODATA tDefault : T.
Variable junkT : nat -> list T.
Variable feqM : M -> M -> bool.
Variable castM mdefault : M -> T.
Local Notation FromMask1D := (@FromMask1D T D dNODATA tNODATA tDefault junkT M feqM castM mdefault).
Local Notation FromMask2D := (@FromMask2D T D dNODATA tNODATA tDefault M feqM castM).

Lemma mask_positions_compact (mask : raster M) ix ord1 ord2 : compact mask ix ->
  GetRasterPositionData feqM ord1 mask = Ok (mask, (r_ncells mask, r_pos mask)) /\
  GetRasterPositionIndex feqM ord2 mask = Ok (mask, (r_ncells mask, r_posidx mask)).
Proof.
  intros (_ & _ & _ & _ & _ & _ & _ & P2 & P1 & _). unfold GetRasterPositionData, GetRasterPositionIndex. rewrite P1, P2. split; reflexivity.
Qed.

(** A mask with all its cells: the valid ones are collected first. *)
Lemma mask_positions_full (mask : raster M) ord1 : full_grid mask -> valid_idx feqM mask <> [] ->
  schedule (Z.of_nat (length (valid_idx feqM mask))) ord1 ->
  compact (compacted feqM mask) (valid_idx feqM mask) /\
  GetRasterPositionData feqM ord1 mask = Ok (compacted feqM mask, (r_ncells (compacted feqM mask), r_pos (compacted feqM mask))).
Proof.
  intros Hf Hv HS. destruct (compacted_shape feqM mask Hf) as [(X & _)|(_ & Hc)]; [contradiction|]. split; [exact Hc|].
  pose proof Hf as (_ & _ & _ & _ & St & HP & _). unfold GetRasterPositionData. rewrite HP. cbn [isnull negb].
  rewrite (storage_valid _ _ St). cbn [negb]. rewrite CalculateValidPositions_full by auto. reflexivity.
Qed.

Lemma FromMask1D_compact (mask : raster M) ix ord1 ord2 vals : compact mask ix -> length vals = length ix ->
  exists r, FromMask1D ord1 ord2 mask (Some vals) (Z.of_nat (length vals)) = Ok (mask, r) /\
    r_is2d r = false /\ r_data r = Some vals /\ r_ncells r = Z.of_nat (length vals) /\ r_nlyrs r = 1 /\ r_calc r = false /\
    r_rows r = r_rows mask /\ r_cols r = r_cols mask /\ r_xll r = r_xll mask /\ r_yll r = r_yll mask /\ r_cs r = r_cs mask /\
    r_nodata r = castM (r_nodata mask) /\ r_pos r = r_pos mask /\ r_posidx r = r_posidx mask /\ r_init r = true.
Proof.
  intros Hc HL. destruct (mask_positions_compact mask ix ord1 ord2 Hc) as (E1 & E2). unfold CopyModel.FromMask1D.
  rewrite E1. cbn [obind fst]. rewrite E2. cbn [obind fst snd].
  assert (En : r_ncells mask = Z.of_nat (length vals)) by (destruct Hc as (_ & _ & _ & _ & Ln & _); lia).
  rewrite En, Z.eqb_refl. cbn [negb]. rewrite copy1d_same by reflexivity. cbn [obind].
  eexists. split; [reflexivity|]. cbn. repeat split.
Qed.

Lemma FromMask2D_compact (mask : raster M) ix ord1 ord2 vals lyrs : compact mask ix -> length vals = length ix -> 1 <= lyrs ->
  Forall (fun c => Z.of_nat (length c) = lyrs) vals ->
  exists r, FromMask2D ord1 ord2 mask (Some vals) (Z.of_nat (length vals)) lyrs = Ok (mask, r) /\
    r_is2d r = true /\ r_data2d r = Some vals /\ r_ncells r = Z.of_nat (length vals) /\ r_nlyrs r = lyrs /\ r_calc r = false /\
    r_rows r = r_rows mask /\ r_cols r = r_cols mask /\ r_xll r = r_xll mask /\ r_yll r = r_yll mask /\ r_cs r = r_cs mask /\
    r_nodata r = castM (r_nodata mask) /\ r_pos r = r_pos mask /\ r_posidx r = r_posidx mask /\ r_init r = true.
Proof.
  intros Hc HL Hl F. destruct (mask_positions_compact mask ix ord1 ord2 Hc) as (E1 & E2). unfold CopyModel.FromMask2D.
  rewrite E1. cbn [obind fst]. rewrite E2. cbn [obind fst snd].
  destruct Hc as (_ & _ & _ & Hn & Ln & _).
  assert (En : r_ncells mask = Z.of_nat (length vals)) by lia.
  rewrite En, Z.eqb_refl. cbn [negb]. rewrite copy2d_same by (auto; lia). cbn [obind].
  eexists. split; [reflexivity|]. cbn. repeat split.
Qed.

(** A mask with all its cells behaves like the one left after collecting them. *)
Lemma FromMask1D_full (mask : raster M) ord1 ord2 vals len : full_grid mask -> valid_idx feqM mask <> [] ->
  schedule (Z.of_nat (length (valid_idx feqM mask))) ord1 ->
  FromMask1D ord1 ord2 mask vals len = FromMask1D ord1 ord2 (compacted feqM mask) vals len.
Proof.
  intros Hf Hv HS. destruct (mask_positions_full mask ord1 Hf Hv HS) as (Hc & E).
  destruct (mask_positions_compact _ _ ord1 ord2 Hc) as (E1 & _).
  unfold CopyModel.FromMask1D. rewrite E, E1. reflexivity.
Qed.
Lemma FromMask2D_full (mask : raster M) ord1 ord2 vals len lyrs : full_grid mask -> valid_idx feqM mask <> [] ->
  schedule (Z.of_nat (length (valid_idx feqM mask))) ord1 ->
  FromMask2D ord1 ord2 mask vals len lyrs = FromMask2D ord1 ord2 (compacted feqM mask) vals len lyrs.
Proof.
  intros Hf Hv HS. destruct (mask_positions_full mask ord1 Hf Hv HS) as (Hc & E).
  destruct (mask_positions_compact _ _ ord1 ord2 Hc) as (E1 & _).
  unfold CopyModel.FromMask2D. rewrite E, E1. reflexivity.
Qed.

(** Reading such an object. *)
Lemma read_unpositioned (r : raster T) vals row col : r_is2d r = false -> r_data r = Some vals -> r_nlyrs r = 1 -> r_calc r = false ->
  inside r row col -> GetValue r row col 1 = aget vals (row * r_cols r + col).
Proof.
  intros E Ed El C I. unfold GetValue. assert (V : ValidateRasterData r = true) by (unfold ValidateRasterData; rewrite E, Ed; reflexivity).
  rewrite V, (proj2 (vrc_true _ _ _) I). rewrite (proj2 (vl_true _ _)) by (unfold layer_ok; lia). cbn [negb orb].
  rewrite C. cbn [andb]. unfold read_cell. rewrite E, Ed. reflexivity.
Qed.
Lemma read_unpositioned2 (r : raster T) vals row col lyr : r_is2d r = true -> r_data2d r = Some vals -> layer_ok r lyr -> r_calc r = false ->
  inside r row col -> GetValue r row col lyr = (let* c := aget vals (row * r_cols r + col) in aget c (lyr - 1)).
Proof.
  intros E Ed El C I. unfold GetValue. assert (V : ValidateRasterData r = true) by (unfold ValidateRasterData; rewrite E, Ed; reflexivity).
  rewrite V, (proj2 (vrc_true _ _ _) I), (proj2 (vl_true _ _) El). cbn [negb orb].
  rewrite C. cbn [andb]. unfold read_cell. rewrite E, Ed. reflexivity.
Qed.
Lemma read_index (r : raster T) vals i : r_is2d r = false -> r_data r = Some vals -> r_nlyrs r = 1 -> r_ncells r = Z.of_nat (length vals) ->
  0 <= i < Z.of_nat (length vals) -> GetValueByIndex r i 1 = aget vals i.
Proof.
  intros E Ed El En I. unfold GetValueByIndex. assert (V : ValidateRasterData r = true) by (unfold ValidateRasterData; rewrite E, Ed; reflexivity).
  rewrite V, (proj2 (vi_true _ _)) by lia. rewrite (proj2 (vl_true _ _)) by (unfold layer_ok; lia). cbn [negb orb]. unfold read_cell. rewrite E, Ed. reflexivity.
Qed.

Lemma FromMask1D_length (mask mask' : raster M) ord1 ord2 vals len r : FromMask1D ord1 ord2 mask vals len = Ok (mask', r) ->
  r_ncells r <> len -> ValidateRasterData r = false /\ r_init r = false.
Proof.
  unfold CopyModel.FromMask1D. destruct (GetRasterPositionData _ _ _) as [[m1 [n1 p]]| |]; cbn [obind fst snd]; try discriminate.
  destruct (GetRasterPositionIndex _ _ _) as [[m2 [n2 ix]]| |]; cbn [obind fst snd]; try discriminate.
  destruct (n2 =? len) eqn:E; cbn [negb].
  - destruct (copy1d _ _ _ _) as [d| |]; cbn [obind]; try discriminate. intros H. injection H as <- <-. cbn [r_ncells]. lia.
  - intros H. injection H as <- <-. intros _. split; reflexivity.
Qed.

Lemma FromMask2D_length (mask mask' : raster M) ord1 ord2 vals len lyrs r : FromMask2D ord1 ord2 mask vals len lyrs = Ok (mask', r) ->
  r_ncells r <> len -> ValidateRasterData r = false /\ r_init r = false.
Proof.
  unfold CopyModel.FromMask2D. destruct (GetRasterPositionData _ _ _) as [[m1 [n1 p]]| |]; cbn [obind fst snd]; try discriminate.
  destruct (GetRasterPositionIndex _ _ _) as [[m2 [n2 ix]]| |]; cbn [obind fst snd]; try discriminate.
  destruct (n2 =? len) eqn:E; cbn [negb].
  - destruct (copy2d _ _ _ _) as [d| |]; cbn [obind]; try discriminate. intros H. injection H as <- <-. cbn [r_ncells]. lia.
  - intros H. injection H as <- <-. intros _. split; reflexivity.
Qed.
End FromMask.

(** *** The valid cells of a mask *)
Lemma sorted_same : forall l l' : list Z, StronglySorted Z.lt l -> StronglySorted Z.lt l' -> (forall k, In k l <-> In k l') -> l = l'.
Proof.
  induction l as [|a l IH]; intros l' S S' H.
  - destruct l' as [|b l']; [reflexivity|]. destruct (proj2 (H b) (or_introl eq_refl)).
  - destruct l' as [|b l']; [destruct (proj1 (H a) (or_introl eq_refl))|].
    inversion S as [|? ? Sl Fl]; subst. inversion S' as [|? ? Sl' Fl']; subst. rewrite Forall_forall in Fl, Fl'.
    assert (E : a = b).
    { destruct (proj1 (H a) (or_introl eq_refl)) as [|I1]; [auto|]. destruct (proj2 (H b) (or_introl eq_refl)) as [|I2]; [auto|].
      specialize (Fl _ I2). specialize (Fl' _ I1). lia. }
    subst b. f_equal. apply IH; auto. intros k. split; intros I.
    + destruct (proj1 (H k) (or_intror I)) as [<-|]; [specialize (Fl _ I); lia|auto].
    + destruct (proj2 (H k) (or_intror I)) as [<-|]; [specialize (Fl' _ I); lia|auto].
Qed.

Lemma valid_cells_idx {M} (feqM : M -> M -> bool) (mask : raster M) ix : full_grid mask -> StronglySorted Z.lt ix ->
  Forall (fun k => 0 <= k < r_rows mask * r_cols mask) ix ->
  (forall row col, inside mask row col ->
     (In (row * r_cols mask + col) ix <-> exists x, GetValue mask row col 1 = Ok x /\ feqM x (r_nodata mask) = false)) ->
  ix = valid_idx feqM mask.
Proof.
  intros Hf HS HF H. apply sorted_same.
  - exact HS.
  - apply StronglySorted_filter, StronglySorted_zseq.
  - pose proof (Forall_valid_idx feqM mask) as HF'. rewrite Forall_forall in HF, HF'. pose proof Hf as (H1 & H2 & _).
    assert (X : forall k, 0 <= k < r_rows mask * r_cols mask ->
      inside mask (k / r_cols mask) (k mod r_cols mask) /\ k / r_cols mask * r_cols mask + k mod r_cols mask = k).
    { intros k Hk. split.
      - split; [split; [apply Z.div_pos; lia|apply Z.div_lt_upper_bound; lia]|apply Z.mod_pos_bound; lia].
      - rewrite Z.mul_comm. symmetry. apply Z.div_mod. lia. }
    intros k. split; intros I.
    + destruct (X k (HF k I)) as (Hin & Ek). rewrite <- Ek. apply valid_idx_In; auto. apply H; auto. now rewrite Ek.
    + destruct (X k (HF' k I)) as (Hin & Ek). rewrite <- Ek. apply H; auto. apply valid_idx_In; auto. now rewrite Ek.
Qed.

Section MaskCtor.
Context {T D M : Type}.
Variable dNODATA : D.
Variable tNODATA tDefault : T.
Variable junkT : nat -> list T.
Variable feqM : M -> M -> bool.
Variable castM mdefault : M -> T.
Local Notation FromMask1D := (@FromMask1D T D dNODATA tNODATA tDefault junkT M feqM castM mdefault).
Local Notation FromMask2D := (@FromMask2D T D dNODATA tNODATA tDefault M feqM castM).

Lemma compacted_header (mask : raster M) : r_rows (compacted feqM mask) = r_rows mask /\ r_cols (compacted feqM mask) = r_cols mask /\
  r_xll (compacted feqM mask) = r_xll mask /\ r_yll (compacted feqM mask) = r_yll mask /\ r_cs (compacted feqM mask) = r_cs mask /\
  r_nodata (compacted feqM mask) = r_nodata mask.
Proof. unfold compacted. destruct (r_is2d mask); cbn; repeat split. Qed.

Lemma valid_cells_compact (mask : raster M) ix ord1 : valid_cells feqM mask ix -> schedule (Z.of_nat (length ix)) ord1 ->
  exists mask', compact mask' ix /\
    r_rows mask' = r_rows mask /\ r_cols mask' = r_cols mask /\ r_xll mask' = r_xll mask /\ r_yll mask' = r_yll mask /\ r_cs mask' = r_cs mask /\
    r_nodata mask' = r_nodata mask /\
    (forall ord2 vals len, FromMask1D ord1 ord2 mask vals len = FromMask1D ord1 ord2 mask' vals len) /\
    (forall ord2 vals len lyrs, FromMask2D ord1 ord2 mask vals len lyrs = FromMask2D ord1 ord2 mask' vals len lyrs).
Proof.
  intros [Hc|(Hf & N & S & F & H)] HS; [exists mask; auto 10|].
  rewrite (valid_cells_idx feqM mask ix Hf S F H) in *.
  destruct (mask_positions_full feqM mask ord1 Hf N HS) as (Hc & _). exists (compacted feqM mask). split; [exact Hc|].
  destruct (compacted_header mask) as (E1 & E2 & E3 & E4 & E5 & E6). do 6 (split; [assumption|]).
  split; intros; [apply FromMask1D_full|apply FromMask2D_full]; auto.
Qed.

Theorem mask_content (mask : raster M) ix ord1 ord2 vals : valid_cells feqM mask ix -> schedule (Z.of_nat (length ix)) ord1 -> length vals = length ix ->
  exists mask' r, FromMask1D ord1 ord2 mask (Some vals) (Z.of_nat (length vals)) = Ok (mask', r) /\ compact mask' ix /\
    same_header castM mask r /\
    (forall i, 0 <= i < Z.of_nat (length vals) -> GetValueByIndex r i 1 = aget vals i) /\
    (forall row col, inside r row col -> GetValue r row col 1 = aget vals (row * r_cols r + col)).
Proof.
  intros HV HS HL. destruct (valid_cells_compact mask ix ord1 HV HS) as (mask' & Hc & E1 & E2 & E3 & E4 & E5 & E6 & EF & _).
  rewrite EF. destruct (FromMask1D_compact dNODATA tNODATA tDefault junkT feqM castM mdefault mask' ix ord1 ord2 vals Hc HL)
    as (r & E & R1 & R2 & R3 & R4 & R5 & R6 & R7 & R8 & R9 & R10 & R11 & _).
  exists mask', r. split; [exact E|]. split; [exact Hc|]. split; [unfold same_header; repeat split; congruence|]. split.
  - intros i I. apply read_index; auto.
  - intros row col I. rewrite read_unpositioned with (vals := vals); auto.
Qed.

Theorem mask_content2 (mask : raster M) ix ord1 ord2 vals lyrs : valid_cells feqM mask ix -> schedule (Z.of_nat (length ix)) ord1 -> length vals = length ix ->
  1 <= lyrs -> Forall (fun c => Z.of_nat (length c) = lyrs) vals ->
  exists mask' r, FromMask2D ord1 ord2 mask (Some vals) (Z.of_nat (length vals)) lyrs = Ok (mask', r) /\ compact mask' ix /\
    same_header castM mask r /\ r_nlyrs r = lyrs /\
    (forall i l, 0 <= i < Z.of_nat (length vals) -> 1 <= l <= lyrs -> GetValueByIndex r i l = (let* c := aget vals i in aget c (l - 1))) /\
    (forall row col l, inside r row col -> 1 <= l <= lyrs -> GetValue r row col l = (let* c := aget vals (row * r_cols r + col) in aget c (l - 1))).
Proof.
  intros HV HS HL Hl F. destruct (valid_cells_compact mask ix ord1 HV HS) as (mask' & Hc & E1 & E2 & E3 & E4 & E5 & E6 & _ & EF).
  rewrite EF. destruct (FromMask2D_compact dNODATA tNODATA tDefault feqM castM mask' ix ord1 ord2 vals lyrs Hc HL Hl F)
    as (r & E & R1 & R2 & R3 & R4 & R5 & R6 & R7 & R8 & R9 & R10 & R11 & _).
  exists mask', r. split; [exact E|]. split; [exact Hc|]. split; [unfold same_header; repeat split; congruence|]. split; [exact R4|]. split.
  - intros i l I L. unfold GetValueByIndex. assert (V : ValidateRasterData r = true) by (unfold ValidateRasterData; rewrite R1, R2; reflexivity).
    rewrite V, (proj2 (vi_true _ _)) by lia. rewrite (proj2 (vl_true _ _)) by (unfold layer_ok; lia). cbn [negb orb]. unfold read_cell. rewrite R1, R2. reflexivity.
  - intros row col l I L. rewrite read_unpositioned2 with (vals := vals); auto. unfold layer_ok. lia.
Qed.
End MaskCtor.
