(** Positions on request, update histories, reclassification, shapes built by
    the constructors. *)
From Coq Require Import ZArith QArith List Bool Lia Permutation Sorted ZifyBool ZifyNat.
From Verif Require Import Base RasterModel RasterSpec ListLib RasterProofs RasterProofs2.
Import ListNotations.
Open Scope Z_scope.

Set Default Proof Using "Type".
Section P.
Context {T : Type}.
Variable feq : T -> T -> bool.
Implicit Types (r : raster T).

Lemma FromArray_full d cols rows (nd df : T) dx xll yll :
  0 < cols -> 0 < rows -> Z.of_nat (length d) = cols * rows ->
  full_grid (FromArray (Some d) cols rows nd df dx xll yll).
Proof. clear feq.
  intros. unfold full_grid, FromArray, storage; cbn. repeat split; auto; try lia.
  exists d. split; auto. lia.
Qed.

Lemma FromArray2D_full d cols rows lyrs (nd df : T) dx xll yll :
  0 < cols -> 0 < rows -> 1 <= lyrs -> Z.of_nat (length d) = cols * rows ->
  Forall (fun c => Z.of_nat (length c) = lyrs) d ->
  full_grid (FromArray2D (Some d) cols rows lyrs nd df dx xll yll).
Proof. clear feq.
  intros. unfold full_grid, FromArray2D, storage; cbn. repeat split; auto; try lia.
  exists d. repeat split; auto. lia.
Qed.

(** Exclusiveness of the shapes *)
Lemma full_not_compact r ix : full_grid r -> compact r ix -> False.
Proof. intros (_&_&_&_&_&HP&_) (_&_&_&_&_&_&_&_&HP'&_). congruence. Qed.
Lemma full_not_emptied r : full_grid r -> emptied r -> False.
Proof. intros (_&_&_&_&_&HP&_) (_&_&_&_&_&HP'&_). congruence. Qed.
Lemma compact_not_emptied r ix : compact r ix -> emptied r -> False.
Proof. intros (_&_&_&_&_&_&_&HI&_) (_&_&_&_&_&_&HI'&_). congruence. Qed.
Lemma compact_unique r ix ix' : compact r ix -> compact r ix' -> ix = ix'.
Proof. intros (_&_&_&_&_&_&_&HI&_) (_&_&_&_&_&_&_&HI'&_). congruence. Qed.

Lemma stored_full r row col : full_grid r -> (stored r row col <-> inside r row col).
Proof. unfold stored. tauto. Qed.
Lemma stored_compact r ix row col : compact r ix ->
  (stored r row col <-> inside r row col /\ In (row * r_cols r + col) ix).
Proof.
  intros Hc. unfold stored. split.
  - intros (Hi & [Hf|(ix' & Hc' & H)]); [exfalso; eapply full_not_compact; eauto|].
    rewrite (compact_unique _ _ _ Hc Hc'). auto.
  - intros (Hi & H). split; eauto.
Qed.
Lemma stored_emptied r row col : emptied r -> ~ stored r row col.
Proof.
  intros He (_ & [Hf|(ix & Hc & _)]); [eapply full_not_emptied|eapply compact_not_emptied]; eauto.
Qed.

Lemma stored_frame r r' row col : wf r -> wf r' -> same_frame r r' -> (stored r' row col <-> stored r row col).
Proof.
  intros Hw Hw' HF. pose proof (frame_fields _ _ HF) as (A&B&C&D&E&F&G&H&I).
  pose proof (inside_frame _ _ row col HF) as HI.
  destruct Hw as [Hf|[(ix & Hc)|He]], Hw' as [Hf'|[(ix' & Hc')|He']].
  - rewrite !stored_full by auto. auto.
  - exfalso. destruct Hf as (_&_&_&_&_&HP&_), Hc' as (_&_&_&_&_&_&_&_&HP'&_). congruence.
  - exfalso. destruct Hf as (_&_&_&_&_&HP&_), He' as (_&_&_&_&_&HP'&_). congruence.
  - exfalso. destruct Hf' as (_&_&_&_&_&HP&_), Hc as (_&_&_&_&_&_&_&_&HP'&_). congruence.
  - rewrite (stored_compact _ _ _ _ Hc), (stored_compact _ _ _ _ Hc'), B, HI.
    destruct Hc as (_&_&_&_&_&_&_&HP&_), Hc' as (_&_&_&_&_&_&_&HP'&_).
    rewrite H, HP in HP'. injection HP' as <-. tauto.
  - exfalso. destruct Hc as (_&_&_&_&_&_&_&HP&_), He' as (_&_&_&_&_&_&HP'&_). congruence.
  - exfalso. destruct Hf' as (_&_&_&_&_&HP&_), He as (_&_&_&_&_&HP'&_). congruence.
  - exfalso. destruct Hc' as (_&_&_&_&_&_&_&HP&_), He as (_&_&_&_&_&_&HP'&_). congruence.
  - split; intros X; exfalso; [exact (stored_emptied _ _ _ He' X)|exact (stored_emptied _ _ _ He X)].
Qed.

Lemma wf_not_full r : wf r -> (~ full_grid r <-> (exists ix, compact r ix) \/ emptied r).
Proof.
  intros [Hf|[(ix & Hc)|He]]; split; intros H; try tauto.
  - destruct H as [(ix & Hc)|He]; intros _; [eapply full_not_compact|eapply full_not_emptied]; eauto.
  - left; eauto.
  - intros Hf; eapply full_not_compact; eauto.
  - intros Hf; eapply full_not_emptied; eauto.
Qed.

Lemma not_full_pos r : wf r -> (~ full_grid r <-> r_pos r <> None).
Proof.
  intros Hw. rewrite wf_not_full by auto. split.
  - intros [(ix & (_&_&_&_&_&_&_&_&HP&_))|(_&_&_&_&_&HP&_)]; congruence.
  - intros HP. destruct Hw as [(_&_&_&_&_&HP'&_)|H]; [contradiction|auto].
Qed.

(** ** SetCalcPositions *)
Lemma SetCalcPositions_full r ord : full_grid r ->
  schedule (r_ncells (compacted feq r)) ord -> SetCalcPositions feq ord r = Ok (compacted feq r, true).
Proof.
  intros Hf HP. pose proof Hf as (H1&H2&H3&H4&HS&HPo&HPi). unfold SetCalcPositions.
  rewrite (storage_valid _ _ HS), HPo, HPi. cbn [isnull negb orb andb]. rewrite andb_false_r.
  unfold CalcNoMask. cbn [r_calc set_pos r_pos r_posidx]. cbn [isnull orb].
  set (r1 := set_pos r None None true (r_store r)).
  assert (Hf1 : full_grid r1).
  { unfold full_grid, r1. cbn. repeat split; auto. }
  assert (Hr1 : compacted feq r1 = compacted feq r).
  { unfold compacted, r1, valid_idx, validb, row_of, read_cell. cbn. destruct (r_is2d r); reflexivity. }
  rewrite CalculateValidPositions_full; auto.
  - cbn [obind fst snd]. rewrite Hr1. reflexivity.
  - rewrite <- Hr1 in HP. unfold compacted in HP. destruct (r_is2d r1); exact HP.
Qed.

Lemma SetCalcPositions_again r ord : wf r -> ~ full_grid r -> SetCalcPositions feq ord r = Ok (r, false).
Proof.
  intros Hw Hn. apply wf_not_full in Hn; auto. unfold SetCalcPositions.
  destruct Hn as [(ix & Hc)|He].
  - destruct Hc as (_&_&_&_&_&HS&HC&HI&HP&_). rewrite (storage_valid _ _ HS), HC, HP. reflexivity.
  - destruct He as (_&_&_&_&HC&HP&HI&HD). destruct (negb (ValidateRasterData r)); auto.
    rewrite HC, HP. reflexivity.
Qed.

Theorem SetCalcPositions_spec r : full_grid r -> exists r' pos,
  (forall ord, schedule (r_ncells r') ord -> SetCalcPositions feq ord r = Ok (r', true)) /\
  wf r' /\ r_rows r' = r_rows r /\ r_cols r' = r_cols r /\ r_nlyrs r' = r_nlyrs r /\ r_nodata r' = r_nodata r /\
  r_pos r' = Some pos /\ r_ncells r' = Z.of_nat (length pos) /\
  pos = filter (fun rc => match GetValue r (fst rc) (snd rc) 1 with
                          | Ok x => negb (feq x (r_nodata r)) | _ => false end)
               (grid_cells (r_rows r) (r_cols r)) /\
  (forall i row col lyr, nth_error pos i = Some (row, col) -> layer_ok r lyr ->
     GetValueByIndex r' (Z.of_nat i) lyr = GetValue r row col lyr /\ 
     GetPosition r' row col = Ok (Z.of_nat i)) /\
  (forall row col lyr, inside r row col -> layer_ok r lyr ->
     exists x1 x, GetValue r row col 1 = Ok x1 /\ GetValue r row col lyr = Ok x /\
       GetValue r' row col lyr = Ok (if feq x1 (r_nodata r) then r_nodata r else x)).
Proof.
  intros Hf. pose proof Hf as (H1&H2&H3&H4&HS&HPo&HPi).
  exists (compacted feq r), (map (fun k => (k / r_cols r, k mod r_cols r)) (valid_idx feq r)).
  destruct (compacted_fields feq r) as (F1&F2&F3&F4&F5).
  split; [intros; apply SetCalcPositions_full; auto|].
  split. { destruct (compacted_shape feq r Hf) as [(_ & He)|(_ & Hc)]; [right; right; auto|right; left; eauto]. }
  split; [auto|]. split; [auto|]. split; [auto|]. split; [auto|].
  split. { unfold compacted. destruct (r_is2d r); reflexivity. }
  split. { rewrite map_length. unfold compacted. destruct (r_is2d r); reflexivity. }
  split; [apply valid_pos_filter; auto|].
  split; [|intros; apply GetValue_compacted; auto].
  intros i row col lyr Hi Hl. rewrite nth_error_map in Hi.
  destruct (nth_error (valid_idx feq r) i) as [k|] eqn:Ek; [|discriminate].
  cbn in Hi. injection Hi as <- <-.
  pose proof (Forall_valid_idx feq r) as HF. rewrite Forall_forall in HF.
  pose proof (HF k (nth_error_In _ _ Ek)) as Hk.
  assert (Hd : k = r_cols r * (k / r_cols r) + k mod r_cols r) by (apply Z.div_mod; lia).
  assert (Hm : 0 <= k mod r_cols r < r_cols r) by (apply Z.mod_pos_bound; lia).
  assert (Hin : inside r (k / r_cols r) (k mod r_cols r)) by (split; [nia|auto]).
  assert (Hilt : (i < length (valid_idx feq r))%nat) by (apply nth_error_Some; congruence).
  destruct (compacted_shape feq r Hf) as [(Hnil & _)|(_ & Hc)]; [rewrite Hnil in Ek; destruct i; discriminate|].
  assert (Hnc : r_ncells (compacted feq r) = Z.of_nat (length (valid_idx feq r))) by apply Hc.
  assert (Hin' : inside (compacted feq r) (k / r_cols r) (k mod r_cols r))
    by (unfold inside in *; rewrite F1, F2; auto).
  split.
  - unfold GetValueByIndex. assert (Hst : storage (compacted feq r) (r_ncells (compacted feq r))) by apply Hc.
    rewrite (storage_valid _ _ Hst), (proj2 (vi_true _ _)) by lia.
    assert (Hl' : layer_ok (compacted feq r) lyr) by (unfold layer_ok in *; rewrite F3; auto).
    rewrite (proj2 (vl_true _ _) Hl'). cbn [negb orb].
    rewrite (compacted_read feq r (Z.of_nat i) k lyr) by (auto; try lia; rewrite Nat2Z.id; auto).
    rewrite GetValue_full by auto. f_equal. lia.
  - destruct (GetPosition_compact _ _ _ _ Hc Hin') as [(m & Hm1 & Hm2 & Hm3)|[_ Hnin]].
    + rewrite Hm1. f_equal. rewrite F2 in Hm3.
      replace (k / r_cols r * r_cols r + k mod r_cols r) with k in Hm3 by lia.
      assert (Hs : StronglySorted Z.lt (valid_idx feq r)) by apply Hc.
      pose proof (sorted_nth_inj _ _ _ _ Hs Ek Hm3). lia.
    + exfalso. apply Hnin. rewrite F2. replace (k / r_cols r * r_cols r + k mod r_cols r) with k by lia.
      eapply nth_error_In; eauto.
Qed.

(** ** Histories *)
Lemma writable_iff r g row col lyr : shows r g ->
  (writable g row col lyr = true <-> stored r row col /\ layer_ok r lyr).
Proof.
  intros (HL & _ & _ & HS & _). unfold writable, layer_ok. rewrite <- HS, HL. lia.
Qed.

Lemma full_iff_pos r : wf r -> (full_grid r <-> r_pos r = None).
Proof.
  intros [Hf|[(ix & Hc)|He]]; split; intros H; auto.
  - apply H.
  - exfalso; eapply full_not_compact; eauto.
  - destruct Hc as (_&_&_&_&_&_&_&_&HP&_). congruence.
  - exfalso; eapply full_not_emptied; eauto.
  - destruct He as (_&_&_&_&_&HP&_). congruence.
Qed.

Lemma abs_set r g row col v lyr r' : wf r -> shows r g -> SetValue r row col v lyr = Ok r' ->
  wf r' /\ shows r' (spec_op feq (OSet row col v lyr) g).
Proof.
  intros Hw Hs HV. pose proof Hs as (HL & HN & HD & HS & HG).
  destruct (writable g row col lyr) eqn:W.
  - apply (writable_iff r) in W as (Hst & Hl); auto.
    destruct (SetValue_stored r row col v lyr Hw Hst Hl) as (r2 & H2 & HF & Hw2 & Hv & Ho).
    rewrite HV in H2. injection H2 as <-. split; auto.
    pose proof (frame_fields _ _ HF) as (A&B&C&D&E&F&G&H&I).
    split; [cbn; congruence|]. split; [cbn; congruence|]. split.
    + cbn. rewrite HD. rewrite !full_iff_pos by auto. rewrite G. tauto.
    + split.
      * intros. cbn. rewrite HS. symmetry. apply stored_frame; auto.
      * intros row' col' lyr'. cbn. rewrite (proj2 (writable_iff r g row col lyr Hs)) by auto. cbn [andb].
        destruct ((row' =? row) && (col' =? col) && (lyr' =? lyr)) eqn:X.
        -- assert (row' = row) by lia; assert (col' = col) by lia; assert (lyr' = lyr) by lia. subst. auto.
        -- rewrite Ho, HG; auto. intros Heq; injection Heq as -> -> ->. lia.
  - assert (Hn : ~ (stored r row col /\ layer_ok r lyr)).
    { intros X. apply (writable_iff r g) in X; auto. congruence. }
    assert (r' = r).
    { destruct (r_is2d r) eqn:E2.
      - destruct (ValidateRowCol r row col) eqn:A; [destruct (ValidateLayer r lyr) eqn:B|].
        + destruct Hw as [Hf|[(ix & Hc)|He]].
          * rewrite SetValue_not_stored in HV; auto; [congruence|left; auto|].
            intros (He & _). eapply full_not_emptied; eauto.
          * rewrite SetValue_not_stored in HV; auto; [congruence|right; left; eauto|].
            intros (He & _). eapply compact_not_emptied; eauto.
          * apply vrc_true in A. apply vl_true in B.
            rewrite SetValue_emptied2d in HV by auto. discriminate.
        + unfold SetValue in HV. rewrite B, !orb_true_r in HV. congruence.
        + unfold SetValue in HV. rewrite A, !orb_true_r in HV. cbn in HV. congruence.
      - rewrite SetValue_not_stored in HV; auto; [congruence|]. intros (_ & X). congruence. }
    subst r'. split; auto. split; [auto|]. split; [auto|]. split; [exact HD|]. split; [exact HS|].
    intros. cbn. rewrite W. cbn. apply HG.
Qed.

Lemma set_nodata_stored r a b c row col : stored (set_nodata r a b c) row col <-> stored r row col.
Proof. reflexivity. Qed.

Lemma abs_replace r g v ord r' : wf r -> shows r g -> schedule (r_ncells r) ord ->
  ReplaceNoData feq ord r v = Ok r' -> wf r' /\ shows r' (spec_op feq (OReplace v) g).
Proof.
  intros Hw Hs HP HV. pose proof Hs as (HL & HN & HD & HS & HG).
  rewrite ReplaceNoData_wf in HV by auto. injection HV as <-.
  assert (Hw' : wf (replaced feq r v)) by (apply set_nodata_wf, map_cells_wf; auto).
  split; auto. pose proof (map_cells_frame (rep feq (r_nodata r) v) r) as HF.
  pose proof (frame_fields _ _ HF) as (A&B&C&D&E&F&G&H&I).
  split; [cbn; congruence|]. split; [reflexivity|]. split.
  - cbn. rewrite HD. rewrite !full_iff_pos by auto. unfold replaced. cbn. rewrite G. tauto.
  - split.
    + intros. cbn. rewrite HS. unfold replaced. rewrite set_nodata_stored. symmetry.
      apply stored_frame; auto.
    + intros row col lyr. cbn.
      destruct (GetValue_map_cells (rep feq (r_nodata r) v) r v v v row col lyr _ Hw (HG row col lyr))
        as [(X1&X2&X3)|(X1&X2&X3)].
      * rewrite (proj2 (writable_iff r g row col lyr Hs)) by auto. rewrite HN. exact X3.
      * destruct (writable g row col lyr) eqn:W; [exfalso; apply X1; apply (writable_iff r g); auto|]. exact X3.
Qed.

Lemma abs_calc r g ord r' b : wf r -> shows r g ->
  SetCalcPositions feq ord r = Ok (r', b) ->
  (forall n, CalcIterations feq r = Ok n -> schedule n ord) ->
  wf r' /\ shows r' (spec_op feq OCalc g).
Proof.
  intros Hw Hs HV HP. pose proof Hs as (HL & HN & HD & HS & HG).
  destruct (ag_dropped g) eqn:Edr.
  - rewrite SetCalcPositions_again in HV by (auto; apply HD; auto). injection HV as <- _.
    unfold spec_op. rewrite Edr. auto.
  - assert (Hf : full_grid r).
    { destruct Hw as [Hf|Hn]; auto. exfalso. assert (X : false = true); [|discriminate].
      apply HD. apply wf_not_full; auto. right; auto. }
    pose proof Hf as (H1&H2&H3&H4&HSt&HPo&HPi).
    assert (Hn : CalcIterations feq r = Ok (r_ncells (compacted feq r))).
    { unfold CalcIterations. erewrite collect_ok by (eauto; lia). cbn. rewrite map_length.
      unfold compacted. destruct (r_is2d r); reflexivity. }
    rewrite SetCalcPositions_full in HV by auto. injection HV as <- _.
    destruct (compacted_fields feq r) as (F1&F2&F3&F4&F5).
    assert (Hsh : wf (compacted feq r) /\ ~ full_grid (compacted feq r) /\
                  forall row col, stored (compacted feq r) row col <->
                                  inside r row col /\ In (row * r_cols r + col) (valid_idx feq r)).
    { destruct (compacted_shape feq r Hf) as [(Hx & He)|(Hx & Hc)].
      - split; [right; right; auto|]. split; [intros X; eapply full_not_emptied; eauto|].
        intros row col. split; [intros X; exfalso; exact (stored_emptied _ _ _ He X)|].
        rewrite Hx. intros (_ & []).
      - split; [right; left; eauto|]. split; [intros X; eapply full_not_compact; eauto|].
        intros. rewrite (stored_compact _ _ _ _ Hc), F2. unfold inside. rewrite F1, F2. tauto. }
    destruct Hsh as (Hw' & Hnf & Hst'). split; auto.
    unfold spec_op. rewrite Edr.
    assert (Hkeep : forall row col, ag_st g row col && negb (feq (ag_val g row col 1) (ag_nd g)) = true
                    <-> stored (compacted feq r) row col).
    { intros row col. rewrite Hst', andb_true_iff, HS, (stored_full r) by auto. rewrite HN.
      split; intros (X & Y); split; auto.
      - apply valid_idx_In; auto. exists (ag_val g row col 1). split; auto.
        destruct (feq (ag_val g row col 1) (r_nodata r)); auto; discriminate.
      - apply (valid_idx_In feq r) in Y as (x & Hx & Ex); auto. rewrite HG in Hx. injection Hx as <-. rewrite Ex. auto. }
    split; [cbn [ag_lyrs]; congruence|]. split; [cbn [ag_nd]; congruence|]. split; [cbn [ag_dropped]; tauto|]. split; [exact Hkeep|].
    intros row col lyr. cbn [ag_val].
    destruct (ValidateRowCol r row col) eqn:A; [destruct (ValidateLayer r lyr) eqn:B|].
    + apply vrc_true in A. apply vl_true in B.
      destruct (GetValue_compacted feq r row col lyr Hf A B) as (x1 & x & Hx1 & Hx & ->).
      rewrite HG in Hx1, Hx. injection Hx1 as <-. injection Hx as <-.
      assert (ag_st g row col = true) by (apply HS; apply stored_full; auto). rewrite H, HN. cbn.
      destruct (feq (ag_val g row col 1) (r_nodata r)); auto.
    + apply vl_false in B. pose proof (HG row col lyr) as X. rewrite GetValue_invalid in X by tauto. injection X as <-.
      rewrite GetValue_invalid by (unfold layer_ok in *; rewrite F3; tauto). rewrite F4, HN.
      destruct (ag_st g row col && _); auto.
    + apply vrc_false in A. pose proof (HG row col lyr) as X. rewrite GetValue_invalid in X by tauto. injection X as <-.
      rewrite GetValue_invalid by (unfold inside in *; rewrite F1, F2; tauto). rewrite F4, HN.
      destruct (ag_st g row col && _); auto.
Qed.

Lemma grid_view_shows r : full_grid r -> shows r (grid_view r).
Proof.
  intros Hf. unfold shows, grid_view. cbn. split; auto. split; auto. split; [split; [discriminate|tauto]|]. split.
  - intros. rewrite stored_full by auto. unfold inside. lia.
  - intros. destruct (GetValue_total r row col lyr (or_introl Hf)) as (v & ->). auto.
Qed.

Theorem history_refines : forall ops r g r', wf r -> shows r g -> op_run feq ops r r' ->
  wf r' /\ shows r' (fold_left (fun g o => spec_op feq o g) ops g).
Proof.
  induction ops as [|o ops IH]; intros r g r' Hw Hs HR; inversion HR; subst; cbn; auto.
  assert (X : wf r1 /\ shows r1 (spec_op feq o g)).
  { match goal with H : op_step _ o _ _ |- _ => inversion H; subst end.
    - eapply abs_set; eauto.
    - eapply abs_replace; eauto.
    - eapply abs_calc; eauto. }
  destruct X. eapply IH; eauto.
Qed.

(** Calls on a single-layer raster always complete. *)
Theorem history_progress : forall ops r, wf r -> r_is2d r = false -> exists r', op_run feq ops r r'.
Proof.
  induction ops as [|o ops IH]; intros r Hw E; [eexists; constructor|].
  assert (X : exists r1, op_step feq o r r1 /\ wf r1 /\ r_is2d r1 = false).
  { destruct o as [row col v lyr|v|].
    - assert (D : (stored r row col /\ layer_ok r lyr) \/ ~ (stored r row col /\ layer_ok r lyr)).
      { destruct (ValidateRowCol r row col) eqn:A; [destruct (ValidateLayer r lyr) eqn:B|].
        - apply vrc_true in A. apply vl_true in B. destruct Hw as [Hf|[(ix & Hc)|He]].
          + left. split; auto. apply stored_full; auto.
          + destruct (in_dec Z.eq_dec (row * r_cols r + col) ix).
            * left. split; auto. eapply stored_compact; eauto.
            * right. intros (X & _). rewrite (stored_compact _ _ _ _ Hc) in X. tauto.
          + right. intros (X & _). eapply stored_emptied; eauto.
        - right. apply vl_false in B. tauto.
        - right. apply vrc_false in A. intros ((X & _) & _). tauto. }
      destruct D as [(D1 & D2)|D].
      + destruct (SetValue_stored r row col v lyr Hw D1 D2) as (r1 & H1 & HF & Hw1 & _).
        exists r1. split; [constructor; auto|]. split; auto.
        pose proof (frame_fields _ _ HF) as (_&_&_&_&X&_). congruence.
      + exists r. split; [constructor; apply SetValue_not_stored; auto; intros (_ & X); congruence|]. auto.
    - destruct (ReplaceNoData_spec feq r v Hw) as (r1 & H1 & Hw1 & _).
      exists (replaced feq r v). split; [|split].
      + econstructor; [apply Permutation_refl|]. apply ReplaceNoData_wf; auto. apply Permutation_refl.
      + apply set_nodata_wf, map_cells_wf; auto.
      + unfold replaced. cbn. pose proof (frame_fields _ _ (map_cells_frame (rep feq (r_nodata r) v) r)) as (_&_&_&_&X&_).
        congruence.
    - destruct (r_pos r) eqn:EP.
      + exists r. split; auto. apply step_calc with (ord := match CalcIterations feq r with Ok n => seq 0 (Z.to_nat n) | _ => [] end) (b := false).
        * apply SetCalcPositions_again; auto. apply not_full_pos; auto. congruence.
        * intros n ->. apply Permutation_refl.
      + assert (Hf : full_grid r) by (apply full_iff_pos; auto).
        destruct (compacted_fields feq r) as (F1&F2&F3&F4&F5).
        exists (compacted feq r). split; [|split].
        * assert (Hn : CalcIterations feq r = Ok (r_ncells (compacted feq r))).
          { pose proof Hf as (H1&H2&H3&H4&HSt&HPo&HPi).
            unfold CalcIterations. erewrite collect_ok by (eauto; lia). cbn. rewrite map_length.
            unfold compacted. destruct (r_is2d r); reflexivity. }
          apply step_calc with (ord := seq 0 (Z.to_nat (r_ncells (compacted feq r)))) (b := true).
          -- apply SetCalcPositions_full; auto. apply Permutation_refl.
          -- rewrite Hn. intros n X. injection X as <-. apply Permutation_refl.
        * destruct (compacted_shape feq r Hf) as [(_ & He)|(_ & Hc)]; [right; right; auto|right; left; eauto].
        * congruence. }
  destruct X as (r1 & Hs & Hw1 & E1). destruct (IH r1 Hw1 E1) as (r' & HR). exists r'. econstructor; eauto.
Qed.

(** ** Destruction *)
Theorem all_nodata_destroy r : full_grid r ->
  (forall row col, inside r row col -> exists x, GetValue r row col 1 = Ok x /\ feq x (r_nodata r) = true) ->
  exists r', SetCalcPositions feq [] r = Ok (r', true) /\ r_ncells r' = 0 /\ Destroy r' = UB.
Proof.
  intros Hf HN. pose proof Hf as (H1&H2&H3&H4&HS&_). exists (compacted feq r).
  assert (Hv : valid_idx feq r = []).
  { destruct (valid_idx feq r) as [|k ks] eqn:E; auto. exfalso.
    pose proof (Forall_valid_idx feq r) as HF. rewrite E in HF. inversion HF as [|? ? Hk _]; subst.
    assert (Hd : k = r_cols r * (k / r_cols r) + k mod r_cols r) by (apply Z.div_mod; lia).
    assert (Hm : 0 <= k mod r_cols r < r_cols r) by (apply Z.mod_pos_bound; lia).
    assert (Hin : inside r (k / r_cols r) (k mod r_cols r)) by (split; [nia|auto]).
    destruct (HN _ _ Hin) as (x & Hx & Ex).
    destruct (proj1 (valid_idx_In feq r _ _ Hf Hin)) as (y & Hy & Ey).
    - rewrite E. replace (k / r_cols r * r_cols r + k mod r_cols r) with k by lia. left; auto.
    - rewrite Hx in Hy. injection Hy as <-. congruence. }
  assert (Hn : r_ncells (compacted feq r) = 0).
  { unfold compacted. rewrite Hv. destruct (r_is2d r); reflexivity. }
  split; [apply SetCalcPositions_full; auto; rewrite Hn; apply Permutation_refl|]. split; auto.
  unfold Destroy, compacted. rewrite Hv. destruct (r_is2d r); reflexivity.
Qed.

End P.

Lemma destroy_ok {T} (r : raster T) : full_grid r \/ (exists ix, compact r ix) -> Destroy r = Ok tt.
Proof.
  intros [Hf|(ix & Hc)]; unfold Destroy.
  - destruct Hf as (H1&H2&H3&H4&HS&HP&_). rewrite HP. unfold storage in HS.
    assert (X : (if r_is2d r then release2d (r_data2d r) else Ok tt) = Ok tt).
    { destruct (r_is2d r); auto. destruct HS as (d & -> & Hn & _). destruct d; auto. cbn in Hn. nia. }
    destruct (r_store r); cbn; auto.
  - destruct Hc as (H1&H2&H3&H4&H5&HS&HC&HI&HP&_). rewrite HP. unfold storage in HS.
    assert (X : (if r_is2d r then release2d (r_data2d r) else Ok tt) = Ok tt).
    { destruct (r_is2d r); auto. destruct HS as (d & -> & Hn & _). destruct d; auto. cbn in Hn. lia. }
    destruct ix; [cbn in H5; lia|]. destruct (r_store r); cbn; auto.
Qed.

(** ** Reclassify *)
Section Recl.
Context {T : Type}.
Implicit Types (r : raster T).
Variable toint : T -> option Z.

Lemma sfold_app {A B} (f : A -> B -> outcome A) : forall l1 l2 a,
  sfold f (l1 ++ l2) a =
  match sfold f l1 a with (a', Ok _) => sfold f l2 a' | x => x end.
Proof. induction l1; cbn; intros; auto. destruct (f a0 a); auto. Qed.

Definition mapped (m : list (Z * T)) (x v : T) : Prop :=
  exists k, toint x = Some k /\ massoc m k = Some v.

Lemma reclass_step_eq r m n i l x : storage r n -> 0 <= i < n -> layer_ok r (l + 1) ->
  read_cell r i (l + 1) = Ok x ->
  reclass_step toint m r (i, l) =
  match toint x with None => UB | Some k => match massoc m k with None => Throw | Some v => write_cell r i l v end end.
Proof.
  intros HS Hi Hl Hx. unfold reclass_step. cbn [fst snd]. pose proof HS as HS'. unfold storage in HS.
  destruct (r_is2d r) eqn:E.
  - destruct HS as (d & HD & _). rewrite HD. cbn [isnull negb andb]. rewrite Hx. cbn [obind]. auto.
  - destruct HS as (HL & d & HD & _). cbn [andb]. unfold read_cell in Hx. rewrite E, HD in Hx. cbn in Hx.
    rewrite HD. cbn [deref obind]. rewrite Hx. cbn [obind]. destruct (toint x); auto. destruct (massoc m z); auto.
    unfold write_cell. rewrite E, HD. cbn [deref obind]. auto.
Qed.

Lemma reclass_loop m n : forall ps r, storage r n -> NoDup ps ->
  (forall i l, In (i, l) ps -> 0 <= i < n /\ layer_ok r (l + 1)) ->
  (forall i l, In (i, l) ps -> exists x v, read_cell r i (l + 1) = Ok x /\ mapped m x v) ->
  exists r', sfold (reclass_step toint m) ps r = (r', Ok tt) /\ same_frame r r' /\ storage r' n /\
    (forall i l, In (i, l) ps -> exists x v, read_cell r i (l + 1) = Ok x /\ mapped m x v /\ read_cell r' i (l + 1) = Ok v) /\
    (forall i l, ~ In (i, l) ps -> layer_ok r (l + 1) -> read_cell r' i (l + 1) = read_cell r i (l + 1)).
Proof.
  induction ps as [|[i l] ps IH]; intros r HS HN HB HM.
  - exists r. split; [reflexivity|]. split; [apply same_frame_refl|]. split; auto.
    split; [intros ? ? []|auto].
  - inversion HN as [|? ? Hni HN']; subst.
    destruct (HB i l) as (Hi & Hl); [left; auto|].
    destruct (HM i l) as (x & v & Hx & k & Hk & Hv); [left; auto|].
    destruct (write_ok r n i (l + 1) v HS Hi Hl) as (r1 & Hw & HF & HS1 & Hrd).
    replace (l + 1 - 1) with l in Hw by lia.
    cbn [sfold]. rewrite (reclass_step_eq r m n i l x) by auto. rewrite Hk, Hv, Hw.
    destruct (IH r1) as (r' & H1 & H2 & H3 & H4 & H5); auto.
    + intros i' l' Hin. destruct (HB i' l') as (? & ?); [right; auto|]. split; auto. apply (layer_frame _ _ _ HF); auto.
    + intros i' l' Hin. destruct (HM i' l') as (x' & v' & Hx' & Hm'); [right; auto|].
      exists x', v'. split; auto. rewrite Hrd by (eapply HB; right; eauto).
      destruct ((i' =? i) && (l' + 1 =? l + 1)) eqn:X; auto. exfalso. apply Hni.
      assert (i' = i) by lia. assert (l' = l) by lia. subst; auto.
    + exists r'. split; auto. split; [eapply same_frame_trans; eauto|]. split; auto. split.
      * intros i' l' [Heq|Hin].
        -- injection Heq as <- <-. exists x, v. split; auto. split; [exists k; auto|].
           rewrite H5 by (auto; apply (layer_frame _ _ _ HF); auto). rewrite Hrd by auto. rewrite !Z.eqb_refl. auto.
        -- destruct (H4 i' l' Hin) as (x' & v' & Hx' & Hm' & Hv'). exists x', v'. split; [|auto].
           rewrite Hrd in Hx' by (eapply HB; right; eauto).
           destruct ((i' =? i) && (l' + 1 =? l + 1)) eqn:X; auto. exfalso. apply Hni.
           assert (i' = i) by lia. assert (l' = l) by lia. subst; auto.
      * intros i' l' Hnin Hl'. rewrite H5 by (try (intros X; apply Hnin; right; auto); apply (layer_frame _ _ _ HF); auto).
        rewrite Hrd by auto. destruct ((i' =? i) && (l' + 1 =? l + 1)) eqn:X; auto. exfalso. apply Hnin. left.
        f_equal; lia.
Qed.

Lemma NoDup_zseq n : NoDup (zseq n).
Proof. unfold zseq. apply FinFun.Injective_map_NoDup; [intros a b; lia|apply seq_NoDup]. Qed.

Lemma NoDup_list_prod {A B} : forall (l : list A) (l' : list B), NoDup l -> NoDup l' -> NoDup (list_prod l l').
Proof.
  induction l as [|a l IH]; intros l' H H'; cbn; [constructor|]. inversion H; subst.
  assert (Hm : NoDup (map (fun y => (a, y)) l')) by (apply FinFun.Injective_map_NoDup; [intros x y E; congruence|auto]).
  revert Hm. generalize (IH l' H3 H'). intros Hl Hm.
  assert (Hd : forall p, In p (map (fun y => (a, y)) l') -> ~ In p (list_prod l l')).
  { intros p Hp Hq. apply in_map_iff in Hp. destruct Hp as (y & <- & _). apply in_prod_iff in Hq. tauto. }
  revert Hm Hd. generalize (map (fun y => (a, y)) l'). induction l0 as [|p l0 IH0]; intros Hm Hd; cbn; auto.
  inversion Hm; subst. constructor.
  - rewrite in_app_iff. intros [X|X]; [auto|]. apply (Hd p); [left; auto|auto].
  - apply IH0; auto. intros q Hq. apply Hd. right; auto.
Qed.

(** All cells mapped. *)
Theorem Reclassify_ok r m : wf r ->
  (forall row col lyr x, stored r row col -> layer_ok r lyr -> GetValue r row col lyr = Ok x ->
     exists v, mapped m x v) ->
  exists r', Reclassify toint r m = (r', Ok tt) /\ wf r' /\ same_frame r r' /\
    (forall row col lyr x, stored r row col -> layer_ok r lyr -> GetValue r row col lyr = Ok x ->
       exists v, mapped m x v /\ GetValue r' row col lyr = Ok v) /\
    (forall row col lyr, ~ (stored r row col /\ layer_ok r lyr) -> GetValue r' row col lyr = Ok (r_nodata r)).
Proof.
  intros Hw HM. unfold Reclassify.
  assert (Hcase : emptied r \/ (storage r (r_ncells r) /\ ~ emptied r)).
  { destruct Hw as [Hf|[(ix & Hc)|He]]; [right|right|left; auto]; split.
    - pose proof Hf as (_&_&_&E&HS&_). rewrite E; auto.
    - intros He. eapply full_not_emptied; eauto.
    - apply Hc.
    - intros He. eapply compact_not_emptied; eauto. }
  destruct Hcase as [He|(HS & Hne)].
  { pose proof He as (_&_&_&H4&_). rewrite H4. exists r. split; [reflexivity|]. split; auto.
    split; [apply same_frame_refl|]. split.
    - intros row col lyr x X. exfalso; eapply stored_emptied; eauto.
    - intros. apply GetValue_emptied; auto. }
  assert (Hcell : forall i, 0 <= i < r_ncells r -> exists row col, stored r row col /\
            forall lyr, layer_ok r lyr -> GetValue r row col lyr = read_cell r i lyr).
  { intros i Hi. destruct Hw as [Hf|[(ix & Hc)|He]].
    - pose proof Hf as (H1&H2&H3&H4&_). exists (i / r_cols r), (i mod r_cols r).
      assert (Hd : i = r_cols r * (i / r_cols r) + i mod r_cols r) by (apply Z.div_mod; lia).
      assert (Hm : 0 <= i mod r_cols r < r_cols r) by (apply Z.mod_pos_bound; lia).
      assert (Hin : inside r (i / r_cols r) (i mod r_cols r)) by (split; [nia|auto]).
      split; [apply stored_full; auto|]. intros. rewrite GetValue_full by auto. f_equal. lia.
    - pose proof Hc as (H1&H2&H3&H4&H5&HSt&HC&HI&HP&HSo&HF).
      destruct (nth_error ix (Z.to_nat i)) as [k|] eqn:Ek; [|apply nth_error_None in Ek; lia].
      rewrite Forall_forall in HF. pose proof (HF k (nth_error_In _ _ Ek)) as Hk.
      exists (k / r_cols r), (k mod r_cols r).
      assert (Hd : k = r_cols r * (k / r_cols r) + k mod r_cols r) by (apply Z.div_mod; lia).
      assert (Hm : 0 <= k mod r_cols r < r_cols r) by (apply Z.mod_pos_bound; lia).
      assert (Hin : inside r (k / r_cols r) (k mod r_cols r)) by (split; [nia|auto]).
      assert (Hk' : k / r_cols r * r_cols r + k mod r_cols r = k) by lia.
      split; [eapply stored_compact; eauto; rewrite Hk'; split; auto; eapply nth_error_In; eauto|].
      intros lyr Hl. destruct (GetValue_compact _ _ _ _ lyr Hc Hin Hl) as [(j & _ & Hj & Hjn & ->)|(_ & Hnin & _)].
      + rewrite Hk' in Hjn. pose proof (sorted_nth_inj _ _ _ _ HSo Ek Hjn). f_equal. lia.
      + exfalso. apply Hnin. rewrite Hk'. eapply nth_error_In; eauto.
    - contradiction. }
  assert (Hloc : forall row col, stored r row col -> exists i, 0 <= i < r_ncells r /\
            forall r', same_frame r r' -> storage r' (r_ncells r) ->
            forall lyr, layer_ok r lyr -> GetValue r' row col lyr = read_cell r' i lyr).
  { intros row col Hst. destruct Hw as [Hf|[(ix & Hc)|He]].
    - pose proof Hf as (H1&H2&H3&H4&_). apply (stored_full r) in Hst; auto.
      exists (row * r_cols r + col). split; [destruct Hst; nia|]. intros r' HF HS' lyr Hl.
      pose proof (frame_fields _ _ HF) as (A&B&_). rewrite H4 in HS'.
      rewrite GetValue_full; [rewrite B; auto|apply (frame_full _ _ HF); auto|
        apply (inside_frame _ _ _ _ HF); auto|apply (layer_frame _ _ _ HF); auto].
    - apply (stored_compact _ _ _ _ Hc) in Hst as (Hin & HIn).
      destruct (In_nth_error _ _ HIn) as (j & Hj). pose proof Hc as (H1&H2&H3&H4&H5&HSt&HC&HI&HP&HSo&HF0).
      assert (j < length ix)%nat by (apply nth_error_Some; congruence).
      exists (Z.of_nat j). split; [lia|]. intros r' HF HS' lyr Hl.
      pose proof (frame_compact _ _ _ HF HS' Hc) as Hc'. pose proof (frame_fields _ _ HF) as (A&B&_).
      destruct (GetValue_compact r' ix row col lyr Hc') as [(q & _ & Hq & Hqn & ->)|(_ & Hnin & _)];
        [apply (inside_frame _ _ _ _ HF); auto|apply (layer_frame _ _ _ HF); auto| |].
      + rewrite B in Hqn. pose proof (sorted_nth_inj _ _ _ _ HSo Hj Hqn). f_equal. lia.
      + rewrite B in Hnin. contradiction.
    - contradiction. }
  destruct (reclass_loop m (r_ncells r) (list_prod (zseq (r_ncells r)) (zseq (r_nlyrs r))) r HS) as (r' & H1 & H2 & H3 & H4 & H5).
  - apply NoDup_list_prod; apply NoDup_zseq.
  - intros i l Hin. apply in_prod_iff in Hin. rewrite !zseq_In in Hin. split; [tauto|]. unfold layer_ok. lia.
  - intros i l Hin. apply in_prod_iff in Hin. rewrite !zseq_In in Hin.
    assert (Hl : layer_ok r (l + 1)) by (unfold layer_ok; lia).
    destruct (Hcell i) as (row & col & Hst & Hg); [tauto|].
    destruct (read_storage r _ i (l + 1) HS) as (x & Hx); [tauto|auto|].
    destruct (HM row col (l + 1) x Hst Hl) as (v & Hv); [rewrite Hg; auto|]. eauto.
  - exists r'. split; auto.
    assert (Hw' : wf r').
    { destruct Hw as [Hf|[(ix & Hc)|He]].
      - left. apply (frame_full _ _ H2); auto. pose proof Hf as (_&_&_&E&_). rewrite <- E. auto.
      - right; left. exists ix. apply (frame_compact _ _ _ H2); auto.
      - contradiction. }
    split; auto. split; auto. split.
    + intros row col lyr x Hst Hl Hx. destruct (Hloc row col Hst) as (i & Hi & Hg).
      rewrite (Hg r (same_frame_refl r) HS lyr Hl) in Hx.
      destruct (H4 i (lyr - 1)) as (x' & v & Hx' & Hm & Hv).
      { apply in_prod_iff. rewrite !zseq_In. unfold layer_ok in Hl. lia. }
      replace (lyr - 1 + 1) with lyr in * by lia. rewrite Hx in Hx'. injection Hx' as <-.
      exists v. split; auto. rewrite Hg by auto. auto.
    + intros row col lyr Hn. pose proof (frame_fields _ _ H2) as (A&B&C&D&E&F&_). rewrite <- F.
      destruct (ValidateRowCol r row col) eqn:VA; [destruct (ValidateLayer r lyr) eqn:VB|].
      * apply vrc_true in VA. apply vl_true in VB.
        destruct Hw as [Hf|[(ix & Hc)|He]]; [exfalso; apply Hn; split; auto; apply stored_full; auto| |contradiction].
        assert (Hc' : compact r' ix) by (apply (frame_compact _ _ _ H2); auto).
        destruct (GetValue_compact r' ix row col lyr Hc') as [(q & _ & Hq & Hqn & _)|(_ & Hnin & ->)]; auto;
          [apply (inside_frame _ _ _ _ H2); auto|apply (layer_frame _ _ _ H2); auto|].
        exfalso. apply Hn. split; auto. eapply stored_compact; eauto. split; auto. rewrite B in Hqn.
        eapply nth_error_In; eauto.
      * apply vl_false in VB. apply GetValue_invalid. rewrite (layer_frame _ _ _ H2). tauto.
      * apply vrc_false in VA. apply GetValue_invalid. rewrite (inside_frame _ _ _ _ H2). tauto.
Qed.

(** First unmapped value, in storage order. *)
Definition before (i l i' l' : Z) : Prop := i < i' \/ (i = i' /\ l < l').

Lemma list_prod_split nc nl i l : 0 <= i < nc -> 0 <= l < nl -> exists pre post,
  list_prod (zseq nc) (zseq nl) = pre ++ (i, l) :: post /\
  (forall i' l', In (i', l') pre <-> 0 <= i' < nc /\ 0 <= l' < nl /\ before i' l' i l).
Proof.
  intros Hi Hl.
  assert (E1 : forall n k, 0 <= k < n -> zseq n = zseq k ++ k :: map (fun j => k + 1 + j) (zseq (n - k - 1))).
  { intros n k Hk. replace n with ((k + 1) + (n - k - 1)) at 1 by lia. rewrite zseq_app, zseq_S by lia.
    rewrite <- app_assoc. reflexivity. }
  assert (LP : forall (a b c : list Z), list_prod (a ++ b) c = list_prod a c ++ list_prod b c).
  { induction a; intros; cbn; auto. rewrite IHa. apply app_assoc. }
  assert (LC : forall a (b c : list Z), list_prod (a :: b) c = map (fun y => (a, y)) c ++ list_prod b c) by reflexivity.
  assert (LM : map (fun y => (i, y)) (zseq nl) = map (fun y => (i, y)) (zseq l) ++
                 (i, l) :: map (fun y => (i, y)) (map (fun j => l + 1 + j) (zseq (nl - l - 1)))).
  { rewrite (E1 nl l) by auto. rewrite map_app. reflexivity. }
  rewrite (E1 nc i), LP, LC, LM by auto.
  eexists (list_prod (zseq i) (zseq nl) ++ map (fun y => (i, y)) (zseq l)), _. split.
  - rewrite <- !app_assoc. reflexivity.
  - intros i' l'. rewrite in_app_iff, in_prod_iff, in_map_iff, !zseq_In. unfold before. split.
    + intros [H|(y & Hy & H)]; [lia|]. injection Hy as <- <-. apply zseq_In in H. lia.
    + intros (H1 & H2 & [H|(-> & H)]); [left; lia|right]. exists l'. rewrite zseq_In. split; auto; lia.
Qed.

Theorem Reclassify_throws r m i lyr x k : wf r -> 0 <= i < r_ncells r -> layer_ok r lyr ->
  GetValueByIndex r i lyr = Ok x -> toint x = Some k -> massoc m k = None ->
  (forall i' l', 0 <= i' < r_ncells r -> layer_ok r l' -> before i' l' i lyr ->
     exists x' v, GetValueByIndex r i' l' = Ok x' /\ mapped m x' v) ->
  exists r', Reclassify toint r m = (r', Throw) /\ same_frame r r' /\
    (forall i' l', 0 <= i' < r_ncells r -> layer_ok r l' ->
       (before i' l' i lyr -> exists x' v, GetValueByIndex r i' l' = Ok x' /\ mapped m x' v /\
                                            GetValueByIndex r' i' l' = Ok v) /\
       (~ before i' l' i lyr -> GetValueByIndex r' i' l' = GetValueByIndex r i' l')).
Proof.
  intros Hw Hi Hl Hx Hk Hm Hb.
  assert (HS : storage r (r_ncells r)).
  { destruct (wf_storage _ Hw) as [(n & HS & ->)|He]; auto. destruct He as (_&_&_&X&_). lia. }
  assert (Hby : forall r' i l, same_frame r r' -> storage r' (r_ncells r) -> 0 <= i < r_ncells r -> layer_ok r l ->
            GetValueByIndex r' i l = read_cell r' i l).
  { intros r' i' l' HF HS' Hi' Hl'. unfold GetValueByIndex. pose proof (frame_fields _ _ HF) as (A&B&C&D&_).
    rewrite (storage_valid _ _ HS'), (proj2 (vi_true _ _)) by lia.
    rewrite (proj2 (vl_true _ _) (proj2 (layer_frame _ _ _ HF) Hl')). auto. }
  destruct (list_prod_split (r_ncells r) (r_nlyrs r) i (lyr - 1)) as (pre & post & Hp & Hpre);
    [auto|unfold layer_ok in Hl; lia|].
  unfold Reclassify. rewrite Hp, sfold_app.
  assert (HND : NoDup (pre ++ (i, lyr - 1) :: post)).
  { rewrite <- Hp. apply NoDup_list_prod; apply NoDup_zseq. }
  destruct (reclass_loop m (r_ncells r) pre r HS) as (r' & H1 & H2 & H3 & H4 & H5).
  - clear -HND. induction pre as [|p pre IH]; [constructor|]. cbn in HND. inversion HND; subst. constructor; auto.
    intros X. apply H1. apply in_app_iff; auto.
  - intros i' l' Hin. apply Hpre in Hin. unfold layer_ok. lia.
  - intros i' l' Hin. apply Hpre in Hin. destruct (Hb i' (l' + 1)) as (x' & v & Hx' & Hv);
      [lia|unfold layer_ok; lia|unfold before in *; lia|].
    rewrite (Hby r) in Hx' by (auto; try apply same_frame_refl; unfold layer_ok; lia). eauto.
  - exists r'. rewrite H1. cbn [sfold].
    assert (Hnp : ~ In (i, lyr - 1) pre). { intros X. apply Hpre in X. unfold before in X. lia. }
    assert (Hrx : read_cell r' i (lyr - 1 + 1) = Ok x).
    { rewrite H5; auto; replace (lyr - 1 + 1) with lyr by lia; auto.
      rewrite (Hby r) in Hx by (auto; apply same_frame_refl). auto. }
    rewrite (reclass_step_eq r' m (r_ncells r) i (lyr - 1) x); auto.
    2:{ replace (lyr - 1 + 1) with lyr by lia. apply (layer_frame _ _ _ H2); auto. }
    rewrite Hk, Hm. split; auto. split; auto.
    intros i' l' Hi' Hl'. rewrite (Hby r') by auto. rewrite (Hby r) by (auto; apply same_frame_refl). split.
    + intros Hbf. destruct (H4 i' (l' - 1)) as (x' & v & Hx' & Hv & Hr').
      { apply Hpre. unfold layer_ok, before in *. lia. }
      replace (l' - 1 + 1) with l' in * by lia. eauto.
    + intros Hbf. specialize (H5 i' (l' - 1)). replace (l' - 1 + 1) with l' in H5 by lia. apply H5; auto.
      intros X. apply Hpre in X. apply Hbf. unfold before in *. lia.
Qed.

End Recl.
