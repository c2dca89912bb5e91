(** NoData replacement, dropping NoData cells, reclassification. *)
From Coq Require Import ZArith QArith List Bool Lia Permutation Sorted ZifyBool ZifyNat.
From Verif Require Import Base RasterModel RasterSpec ListLib RasterProofs.
Import ListNotations.
Open Scope Z_scope.

Set Default Proof Using "Type".
Section P.
Context {T : Type}.
Variable feq : T -> T -> bool.
Implicit Types (r : raster T).

Lemma set_cells_set_cells r a b a' b' : set_cells (set_cells r a b) a' b' = set_cells r a' b'.
Proof. reflexivity. Qed.
Lemma set_cells_id r : set_cells r (r_data r) (r_data2d r) = r.
Proof. destruct r; reflexivity. Qed.

(** ** ReplaceNoData *)
Definition rep (nd v x : T) : T := if feq x nd then v else x.

Lemma replace_inner2d nd v : forall ks r d c i,
  r_is2d r = true -> r_data2d r = Some d -> nth_error d i = Some c ->
  Forall (fun k => (k < length c)%nat) ks ->
  ofold (fun r lyr =>
           if r_is2d r && negb (isnull (r_data2d r)) then
             obind (read_cell r (Z.of_nat i) (lyr + 1))
             (fun x => if feq x nd then write_cell r (Z.of_nat i) lyr v else Ok r)
           else
             obind (deref (r_data r)) (fun d =>
             obind (aget d (Z.of_nat i)) (fun x =>
             if feq x nd then
               obind (aset d (Z.of_nat i) v) (fun d' =>
               Ok (set_cells r (Some d') (r_data2d r)))
             else Ok r)))
        (map Z.of_nat ks) r
  = Ok (set_cells r (r_data r) (Some (upd d i (fold_left (modify (rep nd v)) ks c)))).
Proof.
  induction ks as [|k ks IH]; intros r d c i E HD Hc HF.
  - cbn [map ofold fold_left]. rewrite upd_same by auto. rewrite <- HD, set_cells_id. auto.
  - cbn [map ofold fold_left]. rewrite E, HD. cbn [isnull negb andb]. inversion HF as [|? ? Hk HF']; subst.
    unfold read_cell at 1. rewrite E, HD. cbn [deref obind].
    assert (Hi : (i < length d)%nat) by (apply nth_error_Some; congruence).
    rewrite (aget_ok d (Z.of_nat i) c) by (rewrite ?Nat2Z.id; auto; lia). cbn [obind].
    replace (Z.of_nat k + 1 - 1) with (Z.of_nat k) by lia.
    destruct (nth_error c k) as [x|] eqn:Ex; [|apply nth_error_None in Ex; lia].
    rewrite (aget_ok c (Z.of_nat k) x) by (rewrite ?Nat2Z.id; auto; lia). cbn [obind].
    unfold modify at 2. rewrite Ex. unfold rep at 2. destruct (feq x nd) eqn:EF.
    + unfold write_cell. rewrite E, HD. cbn [deref obind].
      rewrite (aget_ok d (Z.of_nat i) c) by (rewrite ?Nat2Z.id; auto; lia). cbn [obind].
      rewrite aset_ok by lia. cbn [obind]. rewrite aset_ok by lia. cbn [obind]. rewrite !Nat2Z.id.
      rewrite (IH _ (upd d i (upd c k v)) (upd c k v)); auto.
      * cbn. rewrite upd_repeat_map. auto.
      * rewrite upd_nth, Nat.eqb_refl. destruct (i <? length d)%nat eqn:G; [auto|lia].
      * rewrite upd_length. auto.
    + cbn [obind]. rewrite (upd_same c k x) by auto. apply IH; auto.
Qed.

Lemma replace_step2d nd v r d i : r_is2d r = true -> r_data2d r = Some d ->
  Forall (fun c => Z.of_nat (length c) = r_nlyrs r) d -> (i < length d)%nat ->
  replace_step feq nd v r i = Ok (set_cells r (r_data r) (Some (modify (map (rep nd v)) d i))).
Proof.
  intros E HD HF Hi. unfold replace_step, zseq, modify.
  destruct (nth_error d i) as [c|] eqn:Ec; [|apply nth_error_None in Ec; lia].
  assert (Hc : Z.of_nat (length c) = r_nlyrs r).
  { rewrite Forall_forall in HF. apply HF. eapply nth_error_In; eauto. }
  rewrite (replace_inner2d nd v _ r d c i) by
    (auto; apply Forall_forall; intros k Hk; apply in_seq in Hk; lia).
  rewrite par_modify_all; auto. replace (Z.to_nat (r_nlyrs r)) with (length c) by lia. auto.
Qed.

Lemma replace_step1d nd v r d i : r_is2d r = false -> r_data r = Some d -> r_nlyrs r = 1 ->
  (i < length d)%nat ->
  replace_step feq nd v r i = Ok (set_cells r (Some (modify (rep nd v) d i)) (r_data2d r)).
Proof.
  intros E HD HL Hi. unfold replace_step, modify. rewrite HL. change (zseq 1) with [0]. cbn [ofold].
  rewrite E, HD. cbn [andb deref obind].
  destruct (nth_error d i) as [x|] eqn:Ex; [|apply nth_error_None in Ex; lia].
  rewrite (aget_ok d (Z.of_nat i) x) by (rewrite ?Nat2Z.id; auto; lia). cbn [obind].
  unfold rep. destruct (feq x nd).
  - rewrite aset_ok by lia. cbn [obind]. rewrite Nat2Z.id. auto.
  - cbn [obind]. rewrite upd_same by auto. rewrite <- HD, set_cells_id. auto.
Qed.

Lemma replace_all2d nd v : forall ord r d, r_is2d r = true -> r_data2d r = Some d ->
  Forall (fun c => Z.of_nat (length c) = r_nlyrs r) d -> Forall (fun i => (i < length d)%nat) ord ->
  ofold (replace_step feq nd v) ord r =
  Ok (set_cells r (r_data r) (Some (fold_left (modify (map (rep nd v))) ord d))).
Proof.
  induction ord as [|i ord IH]; intros r d E HD HF HO; cbn [ofold fold_left].
  - rewrite <- HD, set_cells_id. auto.
  - inversion HO; subst. rewrite (replace_step2d nd v r d i) by auto. cbn [obind].
    rewrite (IH _ (modify (map (rep nd v)) d i)); auto.
    + cbn. unfold modify. destruct (nth_error d i) eqn:En; auto. apply upd_Forall; auto.
      rewrite map_length. rewrite Forall_forall in HF. apply HF. eapply nth_error_In; eauto.
    + rewrite modify_length. auto.
Qed.

Lemma replace_all1d nd v : forall ord r d, r_is2d r = false -> r_data r = Some d -> r_nlyrs r = 1 ->
  Forall (fun i => (i < length d)%nat) ord ->
  ofold (replace_step feq nd v) ord r =
  Ok (set_cells r (Some (fold_left (modify (rep nd v)) ord d)) (r_data2d r)).
Proof.
  induction ord as [|i ord IH]; intros r d E HD HL HO; cbn [ofold fold_left].
  - rewrite <- HD, set_cells_id. auto.
  - inversion HO; subst. rewrite (replace_step1d nd v r d i) by auto. cbn [obind].
    rewrite (IH _ (modify (rep nd v) d i)); auto. rewrite modify_length. auto.
Qed.

(** Apply [g] to every stored value. *)
Definition map_cells (g : T -> T) r : raster T :=
  if r_is2d r then set_cells r (r_data r) (option_map (map (map g)) (r_data2d r))
  else set_cells r (option_map (map g) (r_data r)) (r_data2d r).

Definition replaced r (v : T) : raster T := set_nodata (map_cells (rep (r_nodata r) v) r) v v v.

Lemma schedule_bound n ord (d : nat) : schedule n ord -> Z.of_nat d = n -> Forall (fun i => (i < d)%nat) ord.
Proof.
  intros HP Hd. apply Forall_forall. intros i Hi. apply (Permutation_in _ HP) in Hi. apply in_seq in Hi. lia.
Qed.

Lemma ReplaceNoData_storage r v n ord : storage r n -> schedule n ord ->
  ReplaceNoData feq ord r v = Ok (replaced r v).
Proof.
  intros HS HP. unfold ReplaceNoData, replaced, map_cells. unfold storage in HS.
  destruct (r_is2d r) eqn:E.
  - destruct HS as (d & HD & Hn & HF).
    rewrite (replace_all2d _ _ ord r d) by (auto; eapply schedule_bound; eauto). cbn [obind].
    rewrite HD. cbn [option_map]. rewrite par_modify_all; auto.
    unfold schedule in HP. replace (Z.to_nat n) with (length d) in HP by lia. auto.
  - destruct HS as (HL & d & HD & Hn).
    rewrite (replace_all1d _ _ ord r d) by (auto; eapply schedule_bound; eauto). cbn [obind].
    rewrite HD. cbn [option_map]. rewrite par_modify_all; auto.
    unfold schedule in HP. replace (Z.to_nat n) with (length d) in HP by lia. auto.
Qed.

Lemma emptied_map_cells r g : emptied r -> map_cells g r = r.
Proof.
  intros (_&_&_&_&_&_&_&HD). unfold map_cells. destruct (r_is2d r) eqn:E.
  - rewrite HD. cbn. rewrite <- HD. apply set_cells_id.
  - destruct HD as (_ & HD). rewrite HD. cbn. rewrite <- HD at 1. apply set_cells_id.
Qed.

Lemma wf_storage r : wf r -> (exists n, storage r n /\ n = r_ncells r) \/ emptied r.
Proof.
  intros [Hf|[(ix & Hc)|He]]; auto; left.
  - destruct Hf as (_&_&_&H4&HS&_). eexists; split; eauto.
  - destruct Hc as (_&_&_&_&_&HS&_). eexists; split; eauto.
Qed.

Lemma ReplaceNoData_wf r v ord : wf r -> schedule (r_ncells r) ord ->
  ReplaceNoData feq ord r v = Ok (replaced r v).
Proof.
  intros Hwf HP. destruct (wf_storage _ Hwf) as [(n & HS & ->)|He].
  - eapply ReplaceNoData_storage; eauto.
  - unfold replaced. rewrite emptied_map_cells by auto.
    destruct He as (_&_&_&HN&_). rewrite HN in HP. unfold schedule in HP. cbn in HP.
    apply Permutation_sym, Permutation_nil in HP. subst. reflexivity.
Qed.

Lemma map_cells_frame g r : same_frame r (map_cells g r).
Proof. unfold map_cells. destruct (r_is2d r); apply set_cells_frame. Qed.

Lemma map_cells_storage g r n : storage r n -> storage (map_cells g r) n.
Proof.
  unfold storage. pose proof (frame_fields _ _ (map_cells_frame g r)) as (A&B&C&D&E&_).
  rewrite E, C. unfold map_cells. destruct (r_is2d r) eqn:E2.
  - intros (d & HD & Hn & HF). exists (map (map g) d). cbn. rewrite HD. split; auto. rewrite map_length. split; auto.
    apply Forall_map. eapply Forall_impl; [|exact HF]. cbn. intros. rewrite map_length. auto.
  - intros (HL & d & HD & Hn). split; auto. exists (map g d). cbn. rewrite HD. split; auto. rewrite map_length; auto.
Qed.

Definition omap {A B} (f : A -> B) (o : outcome A) : outcome B :=
  match o with Ok a => Ok (f a) | UB => UB | Throw => Throw end.

Lemma aget_map {A B} (f : A -> B) l i : aget (map f l) i = omap f (aget l i).
Proof. unfold aget. destruct (i <? 0); auto. rewrite nth_error_map. destruct (nth_error l (Z.to_nat i)); auto. Qed.

Lemma map_cells_read g r i l : read_cell (map_cells g r) i l = omap g (read_cell r i l).
Proof.
  unfold read_cell. pose proof (frame_fields _ _ (map_cells_frame g r)) as (A&B&C&D&E&_).
  rewrite E. unfold map_cells. destruct (r_is2d r) eqn:E2; cbn.
  - destruct (r_data2d r); cbn; auto. rewrite aget_map. destruct (aget l0 i); cbn; auto. apply aget_map.
  - destruct (r_data r); cbn; auto. apply aget_map.
Qed.

Lemma set_nodata_wf r a b c : wf (set_nodata r a b c) <-> wf r.
Proof. reflexivity. Qed.

Lemma map_cells_full g r : full_grid r -> full_grid (map_cells g r).
Proof.
  intros Hf. apply (frame_full _ _ (map_cells_frame g r)); auto. apply map_cells_storage. apply Hf.
Qed.
Lemma map_cells_compact g r ix : compact r ix -> compact (map_cells g r) ix.
Proof.
  intros Hf. apply (frame_compact _ _ _ (map_cells_frame g r)); auto. apply map_cells_storage. apply Hf.
Qed.
Lemma map_cells_wf g r : wf r -> wf (map_cells g r).
Proof.
  intros [Hf|[(ix & Hc)|He]].
  - left. apply map_cells_full; auto.
  - right; left. exists ix. apply map_cells_compact; auto.
  - rewrite emptied_map_cells by auto. right; right; auto.
Qed.

(** A value read after rewriting all stored cells by [g] and changing NoData. *)
Lemma GetValue_map_cells g r a b c row col lyr x : wf r ->
  GetValue r row col lyr = Ok x ->
  (stored r row col /\ layer_ok r lyr /\ GetValue (set_nodata (map_cells g r) a b c) row col lyr = Ok (g x)) \/
  (~ (stored r row col /\ layer_ok r lyr) /\ x = r_nodata r /\
   GetValue (set_nodata (map_cells g r) a b c) row col lyr = Ok a).
Proof.
  clear feq. intros Hwf HG. set (r' := set_nodata (map_cells g r) a b c).
  pose proof (frame_fields _ _ (map_cells_frame g r)) as (A1&B1&C1&D1&E1&_).
  assert (Hin' : forall row col, inside r' row col <-> inside r row col).
  { intros. unfold inside, r'. cbn. rewrite A1, B1. tauto. }
  assert (Hl' : forall l, layer_ok r' l <-> layer_ok r l).
  { intros. unfold layer_ok, r'. cbn. rewrite C1. tauto. }
  assert (Hrd : forall i l, read_cell r' i l = omap g (read_cell r i l)) by (intros; apply map_cells_read).
  destruct (ValidateRowCol r row col) eqn:A; [destruct (ValidateLayer r lyr) eqn:B|].
  - apply vrc_true in A. apply vl_true in B.
    pose proof (proj2 (Hin' row col) A) as A'. pose proof (proj2 (Hl' lyr) B) as B'.
    destruct Hwf as [Hf|[(ix & Hc)|He]].
    + left. split; [split; auto|]. split; auto.
      assert (Hf' : full_grid r') by (apply (map_cells_full g) in Hf; exact Hf).
      rewrite GetValue_full in HG |- * by auto. rewrite Hrd.
      replace (r_cols r') with (r_cols r) by (unfold r'; cbn; auto). rewrite HG. auto.
    + assert (Hc' : compact r' ix) by (apply (map_cells_compact g) in Hc; exact Hc).
      assert (HCr : r_cols r' = r_cols r) by (unfold r'; cbn; auto).
      destruct (GetValue_compact _ _ _ _ _ Hc A B) as [(m & _ & Hm & Hn & HGm)|(_ & Hn & HGm)];
      destruct (GetValue_compact _ _ _ _ _ Hc' A' B') as [(m' & _ & Hm' & Hn' & HGm')|(_ & Hn' & HGm')];
        rewrite HCr in Hn'.
      * left. split; [split; auto; right; exists ix; split; auto; eapply nth_error_In; eauto|]. split; auto.
        assert (Hs : StronglySorted Z.lt ix) by apply Hc.
        pose proof (sorted_nth_inj _ _ _ _ Hs Hn Hn'). assert (m' = m) by lia. subst m'.
        rewrite HGm', Hrd. rewrite HG in HGm. rewrite <- HGm. auto.
      * exfalso. apply Hn'. eapply nth_error_In; eauto.
      * exfalso. apply Hn. eapply nth_error_In; eauto.
      * right. split; [|split; [congruence|exact HGm']].
        intros ((_ & [Hf|(ix' & Hc2 & Hi2)]) & _).
        -- destruct Hf as (_&_&_&_&_&HP&_). destruct Hc as (_&_&_&_&_&_&_&_&HP'&_). congruence.
        -- destruct Hc as (_&_&_&_&_&_&_&HI&_). destruct Hc2 as (_&_&_&_&_&_&_&HI2&_).
           rewrite HI in HI2. injection HI2 as <-. contradiction.
    + right. assert (He' : emptied r') by (unfold r'; rewrite emptied_map_cells by auto; exact He).
      rewrite GetValue_emptied in HG by auto. injection HG as <-.
      split; [|split; auto; rewrite GetValue_emptied by auto; auto].
      intros ((_ & [Hf|(ix' & Hc2 & Hi2)]) & _).
      * destruct Hf as (_&_&_&_&_&HP&_). destruct He as (_&_&_&_&_&HP'&_). congruence.
      * destruct Hc2 as (_&_&_&_&_&_&_&HI&_). destruct He as (_&_&_&_&_&_&HI'&_). congruence.
  - apply vl_false in B. right. rewrite GetValue_invalid in HG by tauto. injection HG as <-.
    split; [tauto|]. split; auto. apply GetValue_invalid. rewrite Hl'. tauto.
  - apply vrc_false in A. right. rewrite GetValue_invalid in HG by tauto. injection HG as <-.
    split; [intros ((? & _) & _); tauto|]. split; auto. apply GetValue_invalid. rewrite Hin'. tauto.
Qed.

Theorem ReplaceNoData_spec r v : wf r -> exists r',
  (forall ord, schedule (r_ncells r) ord -> ReplaceNoData feq ord r v = Ok r') /\
  wf r' /\ r_nodata r' = v /\ r_hnodata r' = v /\ r_default r' = v /\
  (forall row col lyr, exists x, GetValue r row col lyr = Ok x /\
     (stored r row col /\ layer_ok r lyr ->
        GetValue r' row col lyr = Ok (if feq x (r_nodata r) then v else x)) /\
     (~ (stored r row col /\ layer_ok r lyr) -> x = r_nodata r /\ GetValue r' row col lyr = Ok v)).
Proof.
  intros Hwf. exists (replaced r v). split; [intros; apply ReplaceNoData_wf; auto|].
  split; [apply set_nodata_wf, map_cells_wf; auto|]. split; [reflexivity|]. split; [reflexivity|]. split; [reflexivity|].
  intros row col lyr. destruct (GetValue_total r row col lyr Hwf) as (x & Hx). exists x. split; auto.
  destruct (GetValue_map_cells (rep (r_nodata r) v) r v v v row col lyr x Hwf Hx) as [(H1&H2&H3)|(H1&H2&H3)].
  - split; [intros _; exact H3|tauto].
  - split; [tauto|intros _; split; auto].
Qed.

(** Corollary: what used to read as NoData reads as the replacement. *)
Theorem ReplaceNoData_reads r v : wf r -> feq (r_nodata r) (r_nodata r) = true -> exists r',
  (forall ord, schedule (r_ncells r) ord -> ReplaceNoData feq ord r v = Ok r') /\ wf r' /\
  r_nodata r' = v /\
  (forall row col lyr, exists x, GetValue r row col lyr = Ok x /\
     GetValue r' row col lyr = Ok (if feq x (r_nodata r) then v else x)).
Proof.
  intros Hwf Hr. destruct (ReplaceNoData_spec r v Hwf) as (r' & H1 & H2 & H3 & _ & _ & H4).
  exists r'. repeat split; auto. intros row col lyr. destruct (H4 row col lyr) as (x & Hx & Ha & Hb).
  exists x. split; auto.
  destruct (GetValue_map_cells (fun x => x) r (r_nodata r) (r_nodata r) (r_nodata r) row col lyr x Hwf Hx)
    as [(C1&C2&_)|(C1&C2&_)]; [apply Ha; auto|].
  destruct (Hb C1) as (-> & ->). rewrite Hr. auto.
Qed.

(** ** Dropping NoData cells *)

(** All layers of stored cell [k]. *)
Definition row_of r (k : Z) : list T :=
  if r_is2d r then
    match r_data2d r with Some d => nth (Z.to_nat k) d [] | None => [] end
  else match r_data r with
       | Some d => match nth_error d (Z.to_nat k) with Some x => [x] | None => [] end
       | None => []
       end.

Definition validb r (k : Z) : bool :=
  match read_cell r k 1 with Ok v => negb (feq v (r_nodata r)) | _ => false end.

Lemma row_of_nth r n k l : storage r n -> 0 <= k < n -> layer_ok r l ->
  exists v, read_cell r k l = Ok v /\ nth_error (row_of r k) (Z.to_nat (l - 1)) = Some v /\
            Z.of_nat (length (row_of r k)) = r_nlyrs r.
Proof. clear feq.
  unfold storage, read_cell, row_of, layer_ok. destruct (r_is2d r).
  - intros (d & -> & Hn & HF) Hk Hl. cbn.
    destruct (nth_error d (Z.to_nat k)) as [c|] eqn:Ec; [|apply nth_error_None in Ec; lia].
    rewrite (aget_ok _ _ c) by (auto; lia). cbn. rewrite (nth_error_nth _ _ [] Ec).
    rewrite Forall_forall in HF. pose proof (HF c (nth_error_In _ _ Ec)) as HL.
    destruct (nth_error c (Z.to_nat (l-1))) as [v|] eqn:Ev; [|apply nth_error_None in Ev; lia].
    rewrite (aget_ok _ _ v) by (auto; lia). eauto.
  - intros (HL & d & -> & Hn) Hk Hl. cbn.
    destruct (nth_error d (Z.to_nat k)) as [c|] eqn:Ec; [|apply nth_error_None in Ec; lia].
    rewrite (aget_ok _ _ c) by (auto; lia). exists c. cbn. rewrite HL. replace (l - 1) with 0 by lia. auto.
Qed.

Lemma read_layers_ok r n k : storage r n -> 0 <= k < n -> 1 <= r_nlyrs r ->
  forall m, (m <= Z.to_nat (r_nlyrs r - 1))%nat ->
  ofold (fun acc j => obind (read_cell r k (1 + j + 1)) (fun v => Ok (acc ++ [v])))
        (map Z.of_nat (seq 0 m)) [] = Ok (firstn m (tl (row_of r k))).
Proof. clear feq.
  intros HS Hk HL. induction m as [|m IH]; intros Hm; auto.
  rewrite seq_S, map_app, ofold_app, IH by lia. cbn [obind map ofold plus].
  destruct (row_of_nth r n k (1 + Z.of_nat m + 1) HS Hk) as (v & -> & Hn & Hlen); [unfold layer_ok; lia|].
  cbn [obind]. f_equal.
  destruct (row_of r k) as [|x c] eqn:Er; [cbn in Hlen; lia|]. cbn [tl length] in *.
  replace (Z.to_nat (1 + Z.of_nat m + 1 - 1)) with (S m) in Hn by lia. cbn in Hn.
  clear -Hn. revert c Hn. induction m; destruct c; cbn; intros; try discriminate.
  - congruence.
  - f_equal. exact (IHm c Hn).
Qed.

Lemma collect_ok r n : storage r n -> 0 <= r_rows r -> 0 < r_cols r -> n = r_rows r * r_cols r -> 1 <= r_nlyrs r ->
  collect_valid feq r =
  Ok (map (fun k => mkVcell (k / r_cols r) (k mod r_cols r) (row_of r k)) (filter (validb r) (zseq n))).
Proof.
  intros HS Hr Hc Hn HL. unfold collect_valid. rewrite grid_cells_divmod, <- Hn by lia.
  assert (Hin : forall k, In k (zseq n) -> 0 <= k < n) by (intros; apply zseq_In; auto).
  revert Hin. generalize (zseq n) as l.
  assert (G : forall l acc, (forall k, In k l -> 0 <= k < n) ->
    ofold (fun acc ij =>
           obind (read_cell r (fst ij * r_cols r + snd ij) 1) (fun v =>
           if feq v (r_nodata r) then Ok acc
           else
             obind (if r_is2d r && (1 <? r_nlyrs r) then read_layers r (fst ij * r_cols r + snd ij) 1 else Ok [])
             (fun rest => Ok (acc ++ [mkVcell (fst ij) (snd ij) (v :: rest)]))))
        (map (fun k => (k / r_cols r, k mod r_cols r)) l) acc =
    Ok (acc ++ map (fun k => mkVcell (k / r_cols r) (k mod r_cols r) (row_of r k)) (filter (validb r) l))).
  { induction l as [|k l IH]; intros acc Hin; cbn [map ofold filter].
    - rewrite app_nil_r. auto.
    - cbn [fst snd]. assert (Hk : 0 <= k < n) by (apply Hin; left; auto).
      replace (k / r_cols r * r_cols r + k mod r_cols r) with k
        by (rewrite Z.mul_comm; apply Z.div_mod; lia).
      destruct (row_of_nth r n k 1 HS Hk) as (v & Hv & Hnv & Hlen); [unfold layer_ok; lia|].
      unfold validb at 1. rewrite Hv. cbn [obind]. destruct (feq v (r_nodata r)) eqn:Ef; cbn [obind negb].
      + apply IH. intros; apply Hin; right; auto.
      + assert (Hrest : (if r_is2d r && (1 <? r_nlyrs r) then read_layers r k 1 else Ok [])
                        = Ok (tl (row_of r k))).
        { destruct (row_of r k) as [|x c] eqn:Er; [cbn in Hlen; lia|]. cbn [length tl] in *.
          destruct (r_is2d r && (1 <? r_nlyrs r)) eqn:E2.
          - unfold read_layers, zseq. pose proof (read_layers_ok r n k HS Hk HL _ (le_n _)) as HR.
            rewrite Er in HR. cbn [tl] in HR. rewrite firstn_all2 in HR by lia. exact HR.
          - destruct c; auto. exfalso. unfold storage in HS. destruct (r_is2d r); [|destruct HS as (HS & _)];
              cbn in *; lia. }
        rewrite Hrest. cbn [obind map]. rewrite IH by (intros; apply Hin; right; auto).
        rewrite <- app_assoc. cbn [app]. repeat f_equal.
        destruct (row_of r k); cbn in Hnv |- *; [discriminate|]. congruence. }
  intros l Hin. specialize (G l [] Hin). exact G.
Qed.

(** The fill loop *)
Lemma firstn_upd {A} : forall (c : list A) off x, (off < length c)%nat ->
  firstn (S off) (upd c off x) = firstn off c ++ [x].
Proof.
  induction c as [|y c IH]; intros off x H; [cbn in H; lia|]. destruct off; cbn [upd].
  - reflexivity.
  - cbn [length] in H. rewrite firstn_cons, IH by lia. reflexivity.
Qed.

Lemma fill_inner : forall c r d i c0,
  r_is2d r = true -> r_data2d r = Some d -> nth_error d i = Some c0 ->
  forall off, length c0 = (off + length c)%nat ->
  ofold (fun r kv => write_cell r (Z.of_nat i) (fst kv) (snd kv))
        (combine (map Z.of_nat (seq off (length c))) c) r
  = Ok (set_cells r (r_data r) (Some (upd d i (firstn off c0 ++ c)))).
Proof. clear feq.
  induction c as [|x c IH]; intros r d i c0 E HD Hc0 off Hlen; cbn [length seq map combine ofold].
  - cbn [length] in Hlen. rewrite app_nil_r, firstn_all2, upd_same by (auto; lia). rewrite <- HD, set_cells_id. auto.
  - cbn [length fst snd] in *. unfold write_cell at 1. rewrite E, HD. cbn [deref obind].
    assert (Hi : (i < length d)%nat) by (apply nth_error_Some; congruence).
    rewrite (aget_ok d (Z.of_nat i) c0) by (rewrite ?Nat2Z.id; auto; lia). cbn [obind].
    rewrite aset_ok by lia. cbn [obind]. rewrite aset_ok by lia. cbn [obind]. rewrite !Nat2Z.id.
    rewrite (IH _ (upd d i (upd c0 off x)) i (upd c0 off x)); auto.
    + cbn [r_data]. rewrite set_cells_set_cells, upd_repeat_map, firstn_upd by lia.
      rewrite <- app_assoc. reflexivity.
    + rewrite upd_nth, Nat.eqb_refl. destruct (i <? length d)%nat eqn:G; [auto|lia].
    + rewrite upd_length. lia.
Qed.

Lemma fill_step_ok r vs i c d1 d2 p ix :
  nth_error vs i = Some c -> Z.of_nat (length (vc_vals c)) = r_nlyrs r -> 1 <= r_nlyrs r ->
  (if r_is2d r then exists d, r_data2d r = Some d /\ (i < length d)%nat /\
                              Forall (fun c => Z.of_nat (length c) = r_nlyrs r) d /\
                              d1 = r_data r /\ d2 = Some (upd d i (vc_vals c))
   else exists d x, r_data r = Some d /\ (i < length d)%nat /\ vc_vals c = [x] /\
                    d1 = Some (upd d i x) /\ d2 = r_data2d r) ->
  r_pos r = Some p -> (i < length p)%nat -> r_posidx r = Some ix -> (i < length ix)%nat ->
  fill_step r vs i =
  Ok (set_pos (set_cells r d1 d2) (Some (upd p i (vc_row c, vc_col c)))
              (Some (upd ix i (vc_row c * r_cols r + vc_col c))) (r_calc r) (r_store r)).
Proof. clear feq.
  intros Hc Hlen HL HD HP Hp HI Hix. unfold fill_step. rewrite Hc.
  assert (Hw : (if r_is2d r then
           ofold (fun r kv => write_cell r (Z.of_nat i) (fst kv) (snd kv))
                 (combine (zseq (Z.of_nat (length (vc_vals c)))) (vc_vals c)) r
         else
           match vc_vals c with v :: _ => write_cell r (Z.of_nat i) 0 v | [] => UB end) = Ok (set_cells r d1 d2)).
  { destruct (r_is2d r) eqn:E.
    - destruct HD as (d & HD & Hd & HF & -> & ->).
      destruct (nth_error d i) as [c0|] eqn:Ec0; [|apply nth_error_None in Ec0; lia].
      unfold zseq. rewrite Nat2Z.id. rewrite (fill_inner _ _ d i c0 E HD Ec0 0%nat).
      + reflexivity.
      + rewrite Forall_forall in HF. pose proof (HF c0 (nth_error_In _ _ Ec0)). lia.
    - destruct HD as (d & x & HD & Hd & -> & -> & ->). unfold write_cell. rewrite E, HD. cbn [deref obind].
      rewrite aset_ok by lia. cbn [obind]. rewrite Nat2Z.id. auto. }
  rewrite Hw. cbn [obind set_cells r_pos r_posidx]. rewrite HP, HI. cbn [deref obind].
  rewrite !aset_ok by lia. cbn [obind]. rewrite !Nat2Z.id. reflexivity.
Qed.

Definition setv {A} (vals : list A) (d : list A) (i : nat) : list A :=
  match nth_error vals i with Some v => upd d i v | None => d end.

Lemma setv_length {A} (vals d : list A) i : length (setv vals d i) = length d.
Proof. unfold setv. destruct (nth_error vals i); auto. apply upd_length. Qed.

Lemma fill_all2d vs : forall ord r d p ix,
  r_is2d r = true -> 1 <= r_nlyrs r -> r_data2d r = Some d -> r_pos r = Some p -> r_posidx r = Some ix ->
  length d = length vs -> length p = length vs -> length ix = length vs ->
  Forall (fun c => Z.of_nat (length c) = r_nlyrs r) d ->
  Forall (fun c => Z.of_nat (length (vc_vals c)) = r_nlyrs r) vs ->
  Forall (fun i => (i < length vs)%nat) ord ->
  ofold (fun r i => fill_step r vs i) ord r =
  Ok (set_pos (set_cells r (r_data r) (Some (fold_left (setv (map vc_vals vs)) ord d)))
        (Some (fold_left (setv (map (fun c => (vc_row c, vc_col c)) vs)) ord p))
        (Some (fold_left (setv (map (fun c => vc_row c * r_cols r + vc_col c) vs)) ord ix))
        (r_calc r) (r_store r)).
Proof.
  induction ord as [|i ord IH]; intros r d p ix E HL HD HP HI Ld Lp Li HF HV HO; cbn [ofold fold_left].
  - rewrite <- HD, <- HP, <- HI. destruct r; reflexivity.
  - inversion HO as [|? ? Hi HO']; subst.
    destruct (nth_error vs i) as [c|] eqn:Ec; [|apply nth_error_None in Ec; lia].
    assert (Hlen : Z.of_nat (length (vc_vals c)) = r_nlyrs r).
    { rewrite Forall_forall in HV. apply HV. eapply nth_error_In; eauto. }
    erewrite (fill_step_ok r vs i c (r_data r) (Some (upd d i (vc_vals c))) p ix); eauto; try lia.
    2:{ rewrite E. exists d. repeat split; auto. lia. }
    cbn [obind]. unfold setv at 2 4 6. rewrite !nth_error_map, Ec. cbn [option_map].
    erewrite IH; try reflexivity; auto; rewrite ?upd_length; auto.
    apply upd_Forall; auto.
Qed.

Lemma fill_all1d vs : forall ord r d p ix,
  r_is2d r = false -> r_nlyrs r = 1 -> r_data r = Some d -> r_pos r = Some p -> r_posidx r = Some ix ->
  length d = length vs -> length p = length vs -> length ix = length vs ->
  Forall (fun c => Z.of_nat (length (vc_vals c)) = r_nlyrs r) vs ->
  Forall (fun i => (i < length vs)%nat) ord ->
  ofold (fun r i => fill_step r vs i) ord r =
  Ok (set_pos (set_cells r (Some (fold_left (fun d i => match nth_error vs i with
                                                        | Some c => match vc_vals c with x :: _ => upd d i x | [] => d end
                                                        | None => d end) ord d)) (r_data2d r))
        (Some (fold_left (setv (map (fun c => (vc_row c, vc_col c)) vs)) ord p))
        (Some (fold_left (setv (map (fun c => vc_row c * r_cols r + vc_col c) vs)) ord ix))
        (r_calc r) (r_store r)).
Proof. clear feq.
  induction ord as [|i ord IH]; intros r d p ix E HL HD HP HI Ld Lp Li HV HO; cbn [ofold fold_left].
  - rewrite <- HD, <- HP, <- HI. destruct r; reflexivity.
  - inversion HO as [|? ? Hi HO']; subst.
    destruct (nth_error vs i) as [c|] eqn:Ec; [|apply nth_error_None in Ec; lia].
    assert (Hlen : Z.of_nat (length (vc_vals c)) = r_nlyrs r).
    { rewrite Forall_forall in HV. apply HV. eapply nth_error_In; eauto. }
    assert (Hx : exists x, vc_vals c = [x]).
    { rewrite HL in Hlen. destruct (vc_vals c) as [|x [|]]; cbn in Hlen; try lia. eauto. }
    destruct Hx as (x & Hx).
    erewrite (fill_step_ok r vs i c (Some (upd d i x)) (r_data2d r) p ix); eauto; try lia.
    2:{ rewrite E. exists d, x. repeat split; auto. lia. }
    cbn [obind]. unfold setv at 2 4. rewrite !nth_error_map, Ec. cbn [option_map]. rewrite Hx.
    erewrite IH; try reflexivity; auto; rewrite ?upd_length; auto.
Qed.

(** The raster left by dropping the NoData cells of a full grid. *)
Definition valid_idx r : list Z := filter (validb r) (zseq (r_rows r * r_cols r)).

Definition compacted r : raster T :=
  let ks := valid_idx r in
  let n := Z.of_nat (length ks) in
  let pos := map (fun k => (k / r_cols r, k mod r_cols r)) ks in
  let r1 := set_ncells r n n in
  let r2 := if r_is2d r then set_cells r1 (r_data r) (Some (map (row_of r) ks))
            else set_cells r1 (if n <=? 0 then None else Some (concat (map (row_of r) ks))) (r_data2d r) in
  set_pos r2 (Some pos) (if n <=? 0 then None else Some ks) true true.

Lemma fold_left_ext {A B} (f g : A -> B -> A) : (forall a b, f a b = g a b) ->
  forall l a, fold_left f l a = fold_left g l a.
Proof. intros H. induction l; cbn; intros; auto. rewrite H. auto. Qed.

Lemma concat_single {A B} (f : A -> list B) (g : A -> B) : forall l, (forall x, In x l -> f x = [g x]) ->
  concat (map f l) = map g l.
Proof.
  induction l as [|a l IH]; intros H; cbn; auto. rewrite H by (left; auto). cbn. f_equal.
  apply IH. intros; apply H; right; auto.
Qed.

Lemma CalculateValidPositions_full r ord : full_grid r ->
  schedule (Z.of_nat (length (valid_idx r))) ord ->
  CalculateValidPositions feq ord r = Ok (compacted r).
Proof.
  intros Hf HP. pose proof Hf as (H1&H2&H3&H4&HS&HPo&HPi).
  unfold CalculateValidPositions. erewrite collect_ok by (eauto; lia). cbn [obind].
  fold (valid_idx r). set (ks := valid_idx r) in *. rewrite map_length.
  set (vs := map (fun k => mkVcell (k / r_cols r) (k mod r_cols r) (row_of r k)) ks).
  assert (Hks : forall k, In k ks -> 0 <= k < r_rows r * r_cols r).
  { intros k Hk. apply filter_In in Hk. apply zseq_In. tauto. }
  assert (Hlenvs : length vs = length ks) by (unfold vs; apply map_length).
  assert (HV : Forall (fun c => Z.of_nat (length (vc_vals c)) = r_nlyrs r) vs).
  { apply Forall_map. apply Forall_forall. intros k Hk. cbn.
    destruct (row_of_nth r _ k 1 HS (Hks k Hk)) as (_&_&_&?); [unfold layer_ok; lia|auto]. }
  assert (HO : Forall (fun i => (i < length vs)%nat) ord) by (eapply schedule_bound; eauto; lia).
  unfold schedule in HP. rewrite Nat2Z.id in HP.
  assert (Hpos : map (fun c : vcell T => (vc_row c, vc_col c)) vs = map (fun k => (k / r_cols r, k mod r_cols r)) ks).
  { unfold vs. rewrite map_map. reflexivity. }
  assert (Hidx : map (fun c : vcell T => vc_row c * r_cols r + vc_col c) vs = ks).
  { unfold vs. rewrite map_map. cbn. rewrite <- (map_id ks) at 2. apply map_ext. intros.
    rewrite Z.mul_comm. symmetry. apply Z.div_mod. lia. }
  assert (Hvv : map vc_vals vs = map (row_of r) ks) by (unfold vs; rewrite map_map; reflexivity).
  unfold compacted. fold ks. 
  destruct (length ks) as [|n] eqn:En.
  - (* nothing left *)
    assert (ks = []) by (destruct ks; auto; discriminate).
    cbn in HP. apply Permutation_sym, Permutation_nil in HP. subst ord.
    destruct (r_is2d r) eqn:E.
    + unfold storage in HS. rewrite E in HS. destruct HS as (d & HD & Hn & HF). rewrite HD.
      destruct d as [|c d]; [cbn in Hn; nia|]. cbn [release2d obind].
      rewrite H. cbn. rewrite HPo, HPi, ?HD. reflexivity.
    + cbn [obind]. rewrite H. cbn. rewrite HPo, HPi. reflexivity.
  - assert (Hnz : (Z.of_nat (S n) <=? 0) = false) by lia.
    assert (Hnz2 : (Z.of_nat (S n) <? 0) = false) by lia.
    destruct (r_is2d r) eqn:E.
    + pose proof HS as HS'. unfold storage in HS. rewrite E in HS. destruct HS as (d & HD & Hn & HF). rewrite HD.
      destruct d as [|c d]; [cbn in Hn; nia|]. cbn [release2d obind].
      cbn [set_cells set_ncells r_pos r_posidx r_data r_data2d].
      rewrite HPo, HPi. unfold init2d, init1d. rewrite Hnz, Hnz2.
      erewrite (fill_all2d vs ord); try reflexivity; cbn; auto; rewrite ?repeat_length; try lia.
      * cbn [obind]. unfold setv.
        rewrite !par_fill_all; rewrite ?map_length, ?repeat_length; try lia; try (rewrite Hlenvs; auto).
        rewrite Hvv, Hidx, Hpos. reflexivity.
      * apply Forall_forall. intros x Hx. apply repeat_spec in Hx. subst. rewrite repeat_length. lia.
    + pose proof HS as HS'. unfold storage in HS. rewrite E in HS. destruct HS as (HL & d & HD & Hn).
      cbn [obind].
      cbn [set_cells set_ncells r_pos r_posidx r_data r_data2d].
      rewrite HPo, HPi. unfold init2d, init1d. rewrite Hnz, Hnz2.
      erewrite (fill_all1d vs ord); try reflexivity; cbn; auto; rewrite ?repeat_length; try lia.
      cbn [obind].
      assert (Hx : exists g, forall k, In k ks -> row_of r k = [g k]).
      { exists (fun k => nth 0 (row_of r k) (r_nodata r)). intros k Hk.
        destruct (row_of_nth r _ k 1 HS' (Hks k Hk)) as (_&_&_&Hr); [unfold layer_ok; lia|].
        rewrite HL in Hr. destruct (row_of r k) as [|x [|]]; cbn in Hr; try lia. reflexivity. }
      destruct Hx as (g & Hg).
      rewrite (fold_left_ext _ (setv (map g ks))).
      2:{ intros a b. unfold setv, vs. rewrite !nth_error_map. destruct (nth_error ks b) eqn:Eb; cbn; auto.
          rewrite Hg by (eapply nth_error_In; eauto). auto. }
      unfold setv.
      rewrite !par_fill_all; rewrite ?map_length, ?repeat_length; try lia; try (rewrite Hlenvs; auto); try (rewrite En; auto).
      rewrite Hidx, Hpos. rewrite (concat_single _ g) by auto. reflexivity.
Qed.

Lemma Forall_valid_idx r : Forall (fun k => 0 <= k < r_rows r * r_cols r) (valid_idx r).
Proof. apply Forall_forall. intros k Hk. apply filter_In in Hk. apply zseq_In. tauto. Qed.

Lemma compacted_shape r : full_grid r ->
  (valid_idx r = [] /\ emptied (compacted r)) \/ (valid_idx r <> [] /\ compact (compacted r) (valid_idx r)).
Proof.
  intros Hf. pose proof Hf as (H1&H2&H3&H4&HS&HPo&HPi).
  pose proof (Forall_valid_idx r) as HF. rewrite Forall_forall in HF.
  unfold compacted, emptied, compact. destruct (valid_idx r) as [|k ks] eqn:Ek.
  - left. split; auto. cbn. destruct (r_is2d r) eqn:E; cbn; rewrite E; repeat split; auto.
    unfold storage in HS. rewrite E in HS. apply HS.
  - right. split; [discriminate|]. rewrite <- Ek in *.
    assert (Hnz : (Z.of_nat (length (valid_idx r)) <=? 0) = false) by (rewrite Ek; cbn [length]; lia).
    rewrite Hnz. cbn. destruct (r_is2d r) eqn:E; cbn; rewrite ?E; repeat split; auto; try lia.
    + unfold storage. cbn. rewrite E. eexists; split; [reflexivity|]. rewrite map_length. split; auto.
      apply Forall_map. apply Forall_forall. intros x Hx.
      destruct (row_of_nth r _ x 1 HS (HF x Hx)) as (_&_&_&?); [unfold layer_ok; lia|auto].
    + apply StronglySorted_filter, StronglySorted_zseq.
    + apply Forall_forall; auto.
    + unfold storage. cbn. rewrite E. pose proof HS as HS'. unfold storage in HS. rewrite E in HS. destruct HS as (HL & _).
      split; auto. eexists; split; [reflexivity|].
      rewrite (concat_single _ (fun k => nth 0 (row_of r k) (r_nodata r))); [rewrite map_length; auto|].
      intros x Hx. destruct (row_of_nth r _ x 1 HS' (HF x Hx)) as (_&_&_&Hr); [unfold layer_ok; lia|].
      rewrite HL in Hr. destruct (row_of r x) as [|y [|]]; cbn in Hr; try lia. reflexivity.
    + apply StronglySorted_filter, StronglySorted_zseq.
    + apply Forall_forall; auto.
Qed.

(** Stored cell [m] of the compacted raster is cell [nth m] of the grid. *)
Lemma compacted_read r m k l : full_grid r -> 0 <= m -> nth_error (valid_idx r) (Z.to_nat m) = Some k ->
  layer_ok r l -> read_cell (compacted r) m l = read_cell r k l.
Proof.
  intros Hf Hm0 Hm Hl. pose proof Hf as (H1&H2&H3&H4&HS&HPo&HPi).
  pose proof (Forall_valid_idx r) as HF. rewrite Forall_forall in HF.
  pose proof (HF k (nth_error_In _ _ Hm)) as Hk.
  destruct (row_of_nth r _ k l HS Hk Hl) as (v & Hv & Hnv & Hlen). rewrite Hv.
  assert (Hnz : (Z.of_nat (length (valid_idx r)) <=? 0) = false)
    by (destruct (valid_idx r); [destruct (Z.to_nat m); discriminate|cbn [length]; lia]).
  unfold read_cell, compacted. rewrite Hnz. cbn. destruct (r_is2d r) eqn:E; cbn; rewrite ?E; cbn.
  - rewrite (aget_ok _ _ (row_of r k)) by (auto; rewrite nth_error_map, Hm; auto). cbn.
    unfold layer_ok in Hl. apply aget_ok; auto; lia.
  - pose proof HS as HS'. unfold storage in HS. rewrite E in HS. destruct HS as (HL & _).
    rewrite (concat_single _ (fun k => nth 0 (row_of r k) (r_nodata r))).
    + apply aget_ok; auto. rewrite nth_error_map, Hm. cbn. unfold layer_ok in Hl.
      replace (Z.to_nat (l - 1)) with O in Hnv by lia. destruct (row_of r k); cbn in *; congruence.
    + intros x Hx. destruct (row_of_nth r _ x 1 HS' (HF x Hx)) as (_&_&_&Hr); [unfold layer_ok; lia|].
      rewrite HL in Hr. destruct (row_of r x) as [|y [|]]; cbn in Hr; try lia. reflexivity.
Qed.

Lemma compacted_fields r : r_rows (compacted r) = r_rows r /\ r_cols (compacted r) = r_cols r /\
  r_nlyrs (compacted r) = r_nlyrs r /\ r_nodata (compacted r) = r_nodata r /\ r_is2d (compacted r) = r_is2d r.
Proof. unfold compacted. destruct (r_is2d r) eqn:E; cbn; auto. Qed.

Lemma divmod_rc r row col : inside r row col ->
  (row * r_cols r + col) / r_cols r = row /\ (row * r_cols r + col) mod r_cols r = col.
Proof.
  intros [Hr Hc]. split; [symmetry; apply Z.div_unique with col; lia | symmetry; apply Z.mod_unique with row; lia].
Qed.

Lemma valid_idx_In r row col : full_grid r -> inside r row col ->
  (In (row * r_cols r + col) (valid_idx r) <->
   exists x, GetValue r row col 1 = Ok x /\ feq x (r_nodata r) = false).
Proof.
  intros Hf Hin. pose proof Hf as (H1&H2&H3&H4&HS&_).
  rewrite GetValue_full by (auto; unfold layer_ok; lia).
  unfold valid_idx. rewrite filter_In, zseq_In. unfold validb.
  assert (0 <= row * r_cols r + col < r_rows r * r_cols r) by (destruct Hin; nia).
  destruct (read_storage r _ (row * r_cols r + col) 1 HS) as (v & ->); [auto|unfold layer_ok; lia|].
  split.
  - intros (_ & Hv). exists v. split; auto. destruct (feq v (r_nodata r)); auto; discriminate.
  - intros (x & Hx & Hv). injection Hx as <-. rewrite Hv. auto.
Qed.

Lemma GetValue_compacted r row col lyr : full_grid r -> inside r row col -> layer_ok r lyr ->
  exists x1 x, GetValue r row col 1 = Ok x1 /\ GetValue r row col lyr = Ok x /\
    GetValue (compacted r) row col lyr = Ok (if feq x1 (r_nodata r) then r_nodata r else x).
Proof.
  intros Hf Hin Hl. pose proof Hf as (H1&H2&H3&H4&HS&_).
  destruct (GetValue_total r row col 1 (or_introl Hf)) as (x1 & Hx1).
  destruct (GetValue_total r row col lyr (or_introl Hf)) as (x & Hx).
  exists x1, x. repeat split; auto.
  pose proof (valid_idx_In r row col Hf Hin) as HV.
  destruct (compacted_fields r) as (F1&F2&F3&F4&F5).
  assert (Hin' : inside (compacted r) row col) by (unfold inside in *; rewrite F1, F2; auto).
  assert (Hl' : layer_ok (compacted r) lyr) by (unfold layer_ok in *; rewrite F3; auto).
  destruct (compacted_shape r Hf) as [(Hn & He)|(Hn & Hc)].
  - rewrite GetValue_emptied, F4 by auto. rewrite Hn in HV. destruct (feq x1 (r_nodata r)) eqn:Ef; auto.
    exfalso. apply HV. eauto.
  - destruct (GetValue_compact _ _ _ _ _ Hc Hin' Hl') as [(m & _ & Hm & Hk & ->)|(_ & Hk & ->)];
      rewrite F2 in Hk.
    + erewrite compacted_read by (eauto; lia). rewrite GetValue_full in Hx by auto. rewrite Hx.
      apply nth_error_In in Hk. apply HV in Hk. destruct Hk as (y & Hy & Ey).
      rewrite Hx1 in Hy. injection Hy as <-. rewrite Ey. auto.
    + rewrite F4. destruct (feq x1 (r_nodata r)) eqn:Ef; auto. exfalso. apply Hk, HV. eauto.
Qed.

Lemma valid_pos_filter r : full_grid r ->
  map (fun k => (k / r_cols r, k mod r_cols r)) (valid_idx r) =
  filter (fun rc => match GetValue r (fst rc) (snd rc) 1 with
                    | Ok x => negb (feq x (r_nodata r)) | _ => false end) (grid_cells (r_rows r) (r_cols r)).
Proof.
  intros Hf. pose proof Hf as (H1&H2&H3&H4&HS&_).
  rewrite grid_cells_divmod, map_filter by lia. f_equal. unfold valid_idx. apply filter_ext_In.
  intros k Hk. apply zseq_In in Hk. cbn [fst snd].
  assert (Hd : k = r_cols r * (k / r_cols r) + k mod r_cols r) by (apply Z.div_mod; lia).
  assert (Hm : 0 <= k mod r_cols r < r_cols r) by (apply Z.mod_pos_bound; lia).
  assert (inside r (k / r_cols r) (k mod r_cols r)) by (split; [nia|auto]).
  rewrite GetValue_full by (auto; unfold layer_ok; lia).
  replace (k / r_cols r * r_cols r + k mod r_cols r) with k by lia.
  unfold validb. reflexivity.
Qed.

End P.
