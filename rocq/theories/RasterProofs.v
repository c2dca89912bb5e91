(** Lemmas about the raster core. *)
From Coq Require Import ZArith QArith List Bool Lia Permutation Sorted ZifyBool ZifyNat.
From Verif Require Import Base RasterModel RasterSpec ListLib.
Import ListNotations.
Open Scope Z_scope.

Section P.
Context {T : Type}.
Implicit Types (r : raster T).

Lemma vrc_true r row col : ValidateRowCol r row col = true <-> inside r row col.
Proof. unfold ValidateRowCol, inside. lia. Qed.
Lemma vrc_false r row col : ValidateRowCol r row col = false <-> ~ inside r row col.
Proof. unfold ValidateRowCol, inside. lia. Qed.
Lemma vl_true r l : ValidateLayer r l = true <-> layer_ok r l.
Proof. unfold ValidateLayer, layer_ok. lia. Qed.
Lemma vl_false r l : ValidateLayer r l = false <-> ~ layer_ok r l.
Proof. unfold ValidateLayer, layer_ok. lia. Qed.
Lemma vi_true r i : ValidateIndex r i = true <-> 0 <= i < r_ncells r.
Proof. unfold ValidateIndex. lia. Qed.

Lemma storage_valid r n : storage r n -> ValidateRasterData r = true.
Proof.
  unfold storage, ValidateRasterData. destruct (r_is2d r).
  - intros (d & -> & _); auto.
  - intros (_ & d & -> & _); auto.
Qed.

Lemma read_storage r n i l : storage r n -> 0 <= i < n -> layer_ok r l ->
  exists v, read_cell r i l = Ok v.
Proof.
  unfold storage, read_cell, layer_ok. destruct (r_is2d r).
  - intros (d & -> & Hn & HF) Hi Hl. cbn. destruct (aget_in d i) as (c & -> & Hc); [lia|]. cbn.
    rewrite Forall_forall in HF. specialize (HF _ Hc).
    destruct (aget_in c (l-1)) as (v & -> & _); [lia|]. eauto.
  - intros (_ & d & -> & Hn) Hi Hl. cbn. destruct (aget_in d i) as (c & -> & Hc); [lia|]. eauto.
Qed.

Lemma same_frame_refl r : same_frame r r.
Proof. destruct r; reflexivity. Qed.
Lemma same_frame_trans r1 r2 r3 : same_frame r1 r2 -> same_frame r2 r3 -> same_frame r1 r3.
Proof. unfold same_frame. intros H1 H2. rewrite H2, H1. reflexivity. Qed.
Lemma set_cells_frame r d d2 : same_frame r (set_cells r d d2).
Proof. reflexivity. Qed.

Lemma aset_inv {A} (a a' : list A) i v : aset a i v = Ok a' ->
  0 <= i < Z.of_nat (length a) /\ a' = upd a (Z.to_nat i) v.
Proof.
  unfold aset. destruct (i <? 0) eqn:E; try discriminate.
  destruct (Z.to_nat i <? length a)%nat eqn:F; try discriminate. intros H; inversion H; subst.
  split; auto; lia.
Qed.

Lemma aget_upd {A} (a : list A) i v j : 0 <= i < Z.of_nat (length a) ->
  aget (upd a (Z.to_nat i) v) j = if j =? i then Ok v else aget a j.
Proof.
  intros Hi. unfold aget. destruct (j <? 0) eqn:E; [destruct (j =? i) eqn:F; [lia|auto]|].
  rewrite upd_nth. destruct (j =? i) eqn:F.
  - assert (j = i) by lia; subst. rewrite Nat.eqb_refl. destruct (Z.to_nat i <? length a)%nat eqn:G; [auto|lia].
  - destruct (Nat.eqb_spec (Z.to_nat j) (Z.to_nat i)); [lia|]. auto.
Qed.

Lemma write_ok r n i l v : storage r n -> 0 <= i < n -> layer_ok r l ->
  exists r', write_cell r i (l - 1) v = Ok r' /\ same_frame r r' /\ storage r' n /\
    (forall i' l', layer_ok r l' ->
       read_cell r' i' l' = if (i' =? i) && (l' =? l) then Ok v else read_cell r i' l').
Proof.
  unfold storage, read_cell, layer_ok, write_cell. destruct (r_is2d r) eqn:E2.
  - intros (d & Hd & Hn & HF) Hi Hl. rewrite Hd. cbn. destruct (aget_in d i) as (c & Hc & Hin); [lia|].
    rewrite Hc. cbn. rewrite Forall_forall in HF. pose proof (HF _ Hin) as Hlc.
    rewrite aset_ok by lia. cbn. rewrite aset_ok by lia. cbn.
    eexists; split; [reflexivity|]. split; [apply set_cells_frame|]. cbn. rewrite E2. split.
    + eexists; split; [reflexivity|]. rewrite upd_length. split; auto.
      apply upd_Forall; [rewrite Forall_forall; auto|]. rewrite upd_length. auto.
    + intros i' l' Hl'. cbn. rewrite aget_upd by lia. destruct (i' =? i) eqn:Ei; cbn [andb obind]; auto.
      assert (i' = i) by lia; subst. rewrite aget_upd by lia.
      destruct (l' - 1 =? l - 1) eqn:A, (l' =? l) eqn:B; try lia; auto. rewrite Hc. auto.
  - intros (HL & d & Hd & Hn) Hi Hl. rewrite Hd. cbn. rewrite aset_ok by lia. cbn.
    eexists; split; [reflexivity|]. split; [apply set_cells_frame|]. cbn. rewrite E2. split.
    + split; auto. eexists; split; [reflexivity|]. rewrite upd_length. auto.
    + intros i' l' Hl'. cbn. rewrite aget_upd by lia.
      destruct (l' =? l) eqn:B; [|lia]. rewrite andb_true_r. reflexivity.
Qed.

(** Binary search *)
Lemma search_ok : forall fuel ix target left right,
  StronglySorted Z.lt ix -> 0 <= left -> right < Z.of_nat (length ix) -> left <= right + 1 ->
  right - left + 1 < Z.of_nat fuel ->
  (forall i x, nth_error ix i = Some x -> Z.of_nat i < left -> x < target) ->
  (forall i x, nth_error ix i = Some x -> right < Z.of_nat i -> target < x) ->
  (exists m, search fuel ix target left right = Ok m /\ 0 <= m /\ nth_error ix (Z.to_nat m) = Some target)
  \/ (search fuel ix target left right = Ok (-1) /\ ~ In target ix).
Proof.
  induction fuel as [|fuel IH]; intros ix target left right HS H0 HR HLR HF HL HG; [lia|].
  cbn [search]. destruct (left <=? right) eqn:E.
  - assert (Hq : Z.quot (right - left) 2 = (right - left) / 2) by (apply Z.quot_div_nonneg; lia).
    rewrite Hq. set (m := left + (right - left) / 2).
    assert (Hm : left <= m <= right).
    { unfold m. pose proof (Z.div_mod (right-left) 2). pose proof (Z.mod_pos_bound (right-left) 2). lia. }
    destruct (nth_error ix (Z.to_nat m)) as [v|] eqn:Ev; [|apply nth_error_None in Ev; lia].
    rewrite (aget_ok _ _ v) by (auto; lia). cbn [obind].
    destruct (target <? v) eqn:E1; [|destruct (v <? target) eqn:E2'].
    + apply IH; auto; try lia. intros i x Hi Hlt.
      destruct (Z.eq_dec (Z.of_nat i) m) as [He|He].
      * assert (i = Z.to_nat m) by lia. subst i. rewrite Ev in Hi. injection Hi as ->. lia.
      * pose proof (sorted_nth_lt _ _ _ _ _ HS Ev Hi). lia.
    + apply IH; auto; try lia. intros i x Hi Hlt.
      destruct (Z.eq_dec (Z.of_nat i) m) as [He|He].
      * assert (i = Z.to_nat m) by lia. subst i. rewrite Ev in Hi. injection Hi as ->. lia.
      * pose proof (sorted_nth_lt _ _ _ _ _ HS Hi Ev). lia.
    + left. exists m. split; auto. split; [lia|]. rewrite Ev. f_equal. lia.
  - right. split; auto. intros HIn. apply In_nth_error in HIn. destruct HIn as (i & Hi).
    destruct (Z_lt_ge_dec (Z.of_nat i) left); [pose proof (HL _ _ Hi); lia|].
    pose proof (HG _ _ Hi). lia.
Qed.

Lemma search_all : forall ix target, StronglySorted Z.lt ix ->
  (exists m, search (S (length ix)) ix target 0 (Z.of_nat (length ix) - 1) = Ok m /\ 0 <= m /\
             nth_error ix (Z.to_nat m) = Some target)
  \/ (search (S (length ix)) ix target 0 (Z.of_nat (length ix) - 1) = Ok (-1) /\ ~ In target ix).
Proof.
  intros. apply search_ok; auto; try lia.
  intros i x Hi HH. assert (i < length ix)%nat by (apply nth_error_Some; congruence). lia.
Qed.

(** Position lookup in the three shapes *)
Lemma GetPosition_outside r row col : ~ inside r row col -> GetPosition r row col = Ok (-2).
Proof. intros H. unfold GetPosition. apply vrc_false in H. rewrite H, orb_true_r. auto. Qed.

Lemma GetPosition_full r row col : full_grid r -> inside r row col ->
  GetPosition r row col = Ok (row * r_cols r + col).
Proof.
  intros (_&_&_&_&HS&HP&HI) Hin. unfold GetPosition. apply vrc_true in Hin. rewrite Hin.
  rewrite (storage_valid _ _ HS). cbn [negb orb]. rewrite HP, HI. cbn [isnull].
  rewrite orb_true_r. cbn [orb]. f_equal. lia.
Qed.

Lemma GetPosition_compact r ix row col : compact r ix -> inside r row col ->
  (exists m, GetPosition r row col = Ok m /\ 0 <= m < r_ncells r /\
             nth_error ix (Z.to_nat m) = Some (row * r_cols r + col))
  \/ (GetPosition r row col = Ok (-1) /\ ~ In (row * r_cols r + col) ix).
Proof.
  intros (H1&H2&H3&H4&H5&HS&HC&HI&HP&HSo&HF) Hin. unfold GetPosition. apply vrc_true in Hin. rewrite Hin.
  rewrite (storage_valid _ _ HS). cbn [negb orb]. rewrite HP, HI, HC. cbn [isnull negb orb deref obind].
  rewrite H5, Nat2Z.id. replace (r_cols r * row + col) with (row * r_cols r + col) by lia.
  destruct (search_all ix (row * r_cols r + col) HSo) as [(m & Hm & Hm0 & Hn)|[Hm Hn]]; [left|right]; auto.
  exists m. repeat split; auto. assert (Z.to_nat m < length ix)%nat by (apply nth_error_Some; congruence). lia.
Qed.

Lemma GetPosition_emptied1 r row col : emptied r -> r_is2d r = false ->
  GetPosition r row col = Ok (-2).
Proof.
  intros (_&_&_&_&_&_&_&HD) E. rewrite E in HD. destruct HD as (_ & HD).
  unfold GetPosition, ValidateRasterData. rewrite HD, E. auto.
Qed.

(** Reading in the three shapes *)
Lemma GetValue_invalid r row col lyr : ~ (inside r row col /\ layer_ok r lyr) ->
  GetValue r row col lyr = Ok (r_nodata r).
Proof.
  intros H. unfold GetValue. destruct (ValidateRowCol r row col) eqn:A.
  - destruct (ValidateLayer r lyr) eqn:B.
    + exfalso; apply H. apply vrc_true in A. apply vl_true in B. auto.
    + cbn. rewrite orb_true_r. auto.
  - cbn. rewrite orb_true_r. auto.
Qed.

Lemma GetValue_full r row col lyr : full_grid r -> inside r row col -> layer_ok r lyr ->
  GetValue r row col lyr = read_cell r (row * r_cols r + col) lyr.
Proof.
  intros (_&_&_&_&HS&HP&HI) Hin Hl. unfold GetValue.
  apply vrc_true in Hin. apply vl_true in Hl. rewrite Hin, Hl, (storage_valid _ _ HS). cbn [negb orb].
  rewrite HP, HI. cbn [isnull negb orb]. rewrite andb_false_r. auto.
Qed.

Lemma GetValue_compact r ix row col lyr : compact r ix -> inside r row col -> layer_ok r lyr ->
  (exists m, GetPosition r row col = Ok m /\ 0 <= m < r_ncells r /\
             nth_error ix (Z.to_nat m) = Some (row * r_cols r + col) /\
             GetValue r row col lyr = read_cell r m lyr)
  \/ (GetPosition r row col = Ok (-1) /\ ~ In (row * r_cols r + col) ix /\
      GetValue r row col lyr = Ok (r_nodata r)).
Proof.
  intros HCm Hin Hl. pose proof (GetPosition_compact _ _ _ _ HCm Hin) as HG.
  destruct HCm as (H1&H2&H3&H4&H5&HS&HC&HI&HP&HSo&HF).
  unfold GetValue. pose proof (proj2 (vrc_true _ _ _) Hin) as Hin'. pose proof (proj2 (vl_true _ _) Hl) as Hl'.
  rewrite Hin', Hl', (storage_valid _ _ HS), HC, HP, HI. cbn [negb orb isnull andb].
  destruct HG as [(m & Hm & Hb & Hn)|[Hm Hn]].
  - left. exists m. rewrite Hm. cbn [obind]. repeat split; auto; try lia.
    destruct (m <? 0) eqn:E; [lia|]. unfold GetValueByIndex.
    rewrite (storage_valid _ _ HS), Hl', (proj2 (vi_true _ _) Hb). auto.
  - right. rewrite Hm. cbn. auto.
Qed.

Lemma GetValue_emptied r row col lyr : emptied r -> GetValue r row col lyr = Ok (r_nodata r).
Proof.
  intros (H1&H2&H3&H4&HC&HP&HI&HD).
  destruct (ValidateRowCol r row col) eqn:A; [|apply GetValue_invalid; apply vrc_false in A; tauto].
  destruct (ValidateLayer r lyr) eqn:B; [|apply GetValue_invalid; apply vl_false in B; tauto].
  unfold GetValue. destruct (r_is2d r) eqn:E.
  - unfold GetPosition, GetValueByIndex, ValidateRasterData, ValidateIndex.
    rewrite A, B, E, HD, HC, HP, HI, H4. cbn [isnull negb orb andb obind].
    apply vrc_true in A. destruct A as [A1 A2].
    destruct (r_cols r * row + col <? 0) eqn:F; auto.
    assert (0 <=? r_cols r * row + col = true) by lia. rewrite H, orb_true_r. auto.
  - unfold ValidateRasterData. rewrite E. destruct HD as (_ & ->). auto.
Qed.

Lemma GetValue_total r row col lyr : wf r -> exists v, GetValue r row col lyr = Ok v.
Proof.
  intros Hwf.
  destruct (ValidateRowCol r row col) eqn:A;
    [|eexists; apply GetValue_invalid; apply vrc_false in A; tauto].
  destruct (ValidateLayer r lyr) eqn:B; [|eexists; apply GetValue_invalid; apply vl_false in B; tauto].
  apply vrc_true in A. apply vl_true in B.
  destruct Hwf as [Hf|[(ix & Hc)|He]].
  - rewrite GetValue_full by auto. destruct Hf as (_&_&_&_&HS&_). eapply read_storage; eauto.
    destruct A. nia.
  - destruct (GetValue_compact _ _ _ _ _ Hc A B) as [(m & _ & Hm & _ & ->)|(_ & _ & ->)]; [|eauto].
    destruct Hc as (_&_&_&_&_&HS&_). eapply read_storage; eauto.
  - rewrite GetValue_emptied by auto. eauto.
Qed.

(** Shape is preserved by frame-preserving writes. *)
Lemma frame_fields r r' : same_frame r r' ->
  r_rows r' = r_rows r /\ r_cols r' = r_cols r /\ r_nlyrs r' = r_nlyrs r /\ r_ncells r' = r_ncells r /\
  r_is2d r' = r_is2d r /\ r_nodata r' = r_nodata r /\ r_pos r' = r_pos r /\ r_posidx r' = r_posidx r /\
  r_calc r' = r_calc r.
Proof. unfold same_frame. intros ->. cbn. repeat split. Qed.

Lemma frame_full r r' : same_frame r r' -> storage r' (r_rows r * r_cols r) -> full_grid r -> full_grid r'.
Proof.
  intros HF HS. destruct (frame_fields _ _ HF) as (A&B&C&D&E&F&G&H&I).
  unfold full_grid. rewrite A, B, C, D, G, H. intuition.
Qed.

Lemma frame_compact r r' ix : same_frame r r' -> storage r' (r_ncells r) -> compact r ix -> compact r' ix.
Proof.
  intros HF HS. destruct (frame_fields _ _ HF) as (A&B&C&D&E&F&G&H&I).
  unfold compact. rewrite A, B, C, D, G, H, I. intuition.
Qed.

Lemma inside_frame r r' row col : same_frame r r' -> (inside r' row col <-> inside r row col).
Proof.
  intros HF. destruct (frame_fields _ _ HF) as (A&B&_). unfold inside. rewrite A, B. tauto.
Qed.
Lemma layer_frame r r' l : same_frame r r' -> (layer_ok r' l <-> layer_ok r l).
Proof.
  intros HF. destruct (frame_fields _ _ HF) as (A&B&C&_). unfold layer_ok. rewrite C. tauto.
Qed.

(** SetValue on a stored cell *)
Lemma rc_inj r row col row' col' : inside r row col -> inside r row' col' ->
  row * r_cols r + col = row' * r_cols r + col' -> row = row' /\ col = col'.
Proof.
  unfold inside. intros [? ?] [? ?] E.
  assert (row = row') by nia. subst. lia.
Qed.

Lemma SetValue_stored r row col v lyr : wf r -> stored r row col -> layer_ok r lyr ->
  exists r', SetValue r row col v lyr = Ok r' /\ same_frame r r' /\ wf r' /\
    GetValue r' row col lyr = Ok v /\
    (forall row' col' lyr', (row', col', lyr') <> (row, col, lyr) ->
       GetValue r' row' col' lyr' = GetValue r row' col' lyr').
Proof.
  intros Hwf [Hin Hst] Hl. unfold SetValue.
  rewrite (proj2 (vrc_true _ _ _) Hin), (proj2 (vl_true _ _) Hl).
  destruct Hst as [Hf|(ix & Hc & Hix)].
  - rewrite GetPosition_full by auto. pose proof Hf as (H1&H2&H3&H4&HS&HP&HI).
    rewrite (storage_valid _ _ HS). cbn [negb orb obind].
    destruct Hin as [Hr Hcl].
    destruct (row * r_cols r + col =? -1) eqn:E; [nia|].
    destruct (write_ok r _ (row * r_cols r + col) lyr v HS) as (r' & Hw & HF & HS' & Hrd); [nia|auto|].
    exists r'. split; auto. split; auto. pose proof (frame_full _ _ HF HS' Hf) as Hf'.
    split; [left; auto|]. split.
    + rewrite GetValue_full by (auto; try apply (inside_frame _ _ _ _ HF); try apply (layer_frame _ _ _ HF); auto; split; auto).
      pose proof (frame_fields _ _ HF) as (A&B&_). rewrite B, Hrd by auto.
      rewrite !Z.eqb_refl. auto.
    + intros row' col' lyr' Hne.
      destruct (ValidateRowCol r row' col') eqn:A; [destruct (ValidateLayer r lyr') eqn:B|].
      * apply vrc_true in A. apply vl_true in B.
        rewrite !GetValue_full by (auto; try apply (inside_frame _ _ _ _ HF); try apply (layer_frame _ _ _ HF); auto).
        pose proof (frame_fields _ _ HF) as (A1&B1&_). rewrite B1, Hrd by auto.
        destruct ((row' * r_cols r + col' =? row * r_cols r + col) && (lyr' =? lyr)) eqn:X; auto.
        exfalso. apply Hne. destruct (rc_inj r row' col' row col) as [-> ->]; auto; [split; auto|lia|].
        f_equal. lia.
      * apply vl_false in B. rewrite !GetValue_invalid; try tauto.
        -- pose proof (frame_fields _ _ HF) as (_&_&_&_&_&X&_). rewrite X. auto.
        -- rewrite (layer_frame _ _ _ HF). tauto.
      * apply vrc_false in A. rewrite !GetValue_invalid; try tauto.
        -- pose proof (frame_fields _ _ HF) as (_&_&_&_&_&X&_). rewrite X. auto.
        -- rewrite (inside_frame _ _ _ _ HF). tauto.
  - pose proof Hc as (H1&H2&H3&H4&H5&HS&HC&HI&HP&HSo&HFa).
    rewrite (storage_valid _ _ HS). cbn [negb orb].
    destruct (GetPosition_compact _ _ _ _ Hc Hin) as [(m & Hm & Hb & Hn)|[_ Hn]]; [|contradiction].
    rewrite Hm. cbn [obind]. destruct (m =? -1) eqn:E; [lia|].
    destruct (write_ok r _ m lyr v HS Hb Hl) as (r' & Hw & HF & HS' & Hrd).
    exists r'. split; auto. split; auto. pose proof (frame_compact _ _ _ HF HS' Hc) as Hc'.
    split; [right; left; eauto|].
    pose proof (frame_fields _ _ HF) as (A1&B1&C1&D1&E1&F1&_).
    assert (Hin' : inside r' row col) by (apply (inside_frame _ _ _ _ HF); auto).
    assert (Hl' : layer_ok r' lyr) by (apply (layer_frame _ _ _ HF); auto).
    split.
    + destruct (GetValue_compact _ _ _ _ _ Hc' Hin' Hl') as [(m' & _ & Hb' & Hn' & ->)|(_ & Hn' & _)].
      * rewrite Hrd by auto. rewrite B1 in Hn'.
        pose proof (sorted_nth_inj _ _ _ _ HSo Hn Hn').
        assert (m' = m) by lia. subst. rewrite !Z.eqb_refl. auto.
      * rewrite B1 in Hn'. contradiction.
    + intros row' col' lyr' Hne.
      destruct (ValidateRowCol r row' col') eqn:A; [destruct (ValidateLayer r lyr') eqn:B|].
      * apply vrc_true in A. apply vl_true in B.
        pose proof (proj2 (inside_frame _ _ row' col' HF) A) as A'.
        pose proof (proj2 (layer_frame _ _ lyr' HF) B) as B'.
        destruct (GetValue_compact _ _ _ _ _ Hc A B) as [(k & _ & Hkb & Hk & ->)|(_ & Hk & ->)];
        destruct (GetValue_compact _ _ _ _ _ Hc' A' B') as [(k' & _ & Hkb' & Hk' & ->)|(_ & Hk' & ->)];
          rewrite B1 in Hk'.
        -- pose proof (sorted_nth_inj _ _ _ _ HSo Hk Hk'). assert (k' = k) by lia. subst k'.
           rewrite Hrd by auto. destruct ((k =? m) && (lyr' =? lyr)) eqn:X; auto.
           exfalso. apply Hne. assert (k = m) by lia. subst k. rewrite Hk in Hn. injection Hn as Hn.
           destruct (rc_inj r row' col' row col) as [-> ->]; auto. f_equal. lia.
        -- exfalso. apply Hk'. eapply nth_error_In; eauto.
        -- exfalso. apply Hk. eapply nth_error_In; eauto.
        -- rewrite F1. auto.
      * apply vl_false in B. rewrite !GetValue_invalid; try tauto.
        -- rewrite F1. auto.
        -- rewrite (layer_frame _ _ _ HF). tauto.
      * apply vrc_false in A. rewrite !GetValue_invalid; try tauto.
        -- rewrite F1; auto.
        -- rewrite (inside_frame _ _ _ _ HF). tauto.
Qed.

(** SetValue elsewhere does nothing, except on an emptied layered raster. *)
Lemma SetValue_not_stored r row col v lyr : wf r ->
  ~ (emptied r /\ r_is2d r = true) ->
  ~ (stored r row col /\ layer_ok r lyr) -> SetValue r row col v lyr = Ok r.
Proof.
  intros Hwf HE HN. unfold SetValue.
  destruct (ValidateRowCol r row col) eqn:A; [|rewrite orb_true_r; auto].
  destruct (ValidateLayer r lyr) eqn:B; [|rewrite !orb_true_r; auto].
  apply vrc_true in A. apply vl_true in B.
  destruct Hwf as [Hf|[(ix & Hc)|He]].
  - exfalso. apply HN. split; auto. split; auto.
  - pose proof Hc as (H1&H2&H3&H4&H5&HS&_). rewrite (storage_valid _ _ HS). cbn [negb orb].
    destruct (GetPosition_compact _ _ _ _ Hc A) as [(m & Hm & Hb & Hn)|[Hm Hn]].
    + exfalso. apply HN. split; auto. split; auto. right. exists ix. split; auto. eapply nth_error_In; eauto.
    + rewrite Hm. reflexivity.
  - destruct (r_is2d r) eqn:E; [exfalso; auto|]. destruct He as (_&_&_&_&_&_&_&HD). rewrite E in HD.
    unfold ValidateRasterData. destruct HD as (_ & ->). rewrite E. auto.
Qed.

(** On an emptied layered raster SetValue writes out of bounds. *)
Lemma SetValue_emptied2d r row col v lyr : emptied r -> r_is2d r = true ->
  inside r row col -> layer_ok r lyr -> SetValue r row col v lyr = UB.
Proof.
  intros (H1&H2&H3&H4&HC&HP&HI&HD) E A B. rewrite E in HD. unfold SetValue, GetPosition, ValidateRasterData.
  rewrite (proj2 (vrc_true _ _ _) A), (proj2 (vl_true _ _) B), E, HD, HC, HP, HI. cbn [isnull negb orb andb obind].
  destruct A as [A1 A2]. destruct (r_cols r * row + col =? -1) eqn:F; [nia|].
  unfold write_cell. rewrite E, HD. cbn [deref obind]. unfold aget.
  destruct (r_cols r * row + col <? 0); auto. destruct (Z.to_nat (r_cols r * row + col)); reflexivity.
Qed.

End P.
