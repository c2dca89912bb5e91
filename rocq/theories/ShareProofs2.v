From Coq Require Import ZArith List Bool Lia Permutation ZifyBool Sorted.
From Verif Require Import Base RasterModel RasterSpec ListLib RasterProofs ParModel ParSpec ParProofs ShareModel ShareSpec ShareProofs.
Import ListNotations.
Open Scope Z_scope.

Section S.
Context {T D : Type}.
Notation prog := (prog T D (answer T D)).
Implicit Types (r : raster T) (m : mem T D) (p q : prog).
Definition b2z (b : bool) : Z := if b then 1 else 0.

(** The int fields and elements of an object. *)
Inductive pinned r : loc -> Z -> Prop :=
| p_2d : pinned r F_2d (b2z (r_is2d r))
| p_data : pinned r F_data (b2z (negb (isnull (r_data r))))
| p_data2 : pinned r F_data2 (b2z (negb (isnull (r_data2d r))))
| p_rows : pinned r F_rows (r_rows r)
| p_cols : pinned r F_cols (r_cols r)
| p_lyrs : pinned r F_lyrs (r_nlyrs r)
| p_cells : pinned r F_cells (r_ncells r)
| p_calc : pinned r F_calc (b2z (r_calc r))
| p_pos : pinned r F_pos (b2z (negb (isnull (r_pos r))))
| p_posidx : pinned r F_posidx (b2z (negb (isnull (r_posidx r))))
| p_ix ix i z : r_posidx r = Some ix -> aget ix i = Ok z -> pinned r (A_posidx, i, 0) z.
Lemma holds_pinned m r l z : holds m r -> pinned r l z -> m l = Some (WI z).
Proof. intros (H1&H2&H3&H4&H5&H6&H7&H8&H9&H10&H11&H12&H13) P. destruct P; try assumption. eapply H12; eassumption. Qed.

(** Reaching the rest of a program by reading these. *)
Inductive reach r : prog -> prog -> Prop :=
| reach_refl p : reach r p p
| reach_rd l k z q : pinned r l z -> reach r (k z) q -> reach r (rdI l k) q.
Lemma reach_trans r p q s : reach r p q -> reach r q s -> reach r p s.
Proof. induction 1; [auto|]. intros. eapply reach_rd; eauto. Qed.

Lemma reach_is r l b k q : pinned r l (b2z b) -> reach r (k b) q -> reach r (isP l k) q.
Proof. intros P H. unfold isP. eapply reach_rd; [exact P|]. destruct b; exact H. Qed.
Ltac is c := eapply reach_is; [apply c|].

Lemma r_validate r k q : reach r (k (ValidateRasterData r)) q -> reach r (ValidateP k) q.
Proof.
  intros H. unfold ValidateP, orP, andP, notP. unfold ValidateRasterData in H.
  is p_2d. destruct (r_is2d r) eqn:E2; cbn [negb andb orb] in *.
  - apply (reach_is r F_2d true); [rewrite <- E2; apply p_2d|]. is p_data2. destruct (isnull (r_data2d r)); exact H.
  - is p_data. destruct (isnull (r_data r)); cbn [negb orb] in *; [|exact H]. apply (reach_is r F_2d false); [rewrite <- E2; apply p_2d|]. exact H.
Qed.
Lemma r_rowcol r row col k q : reach r (k (ValidateRowCol r row col)) q -> reach r (RowColP row col k) q.
Proof.
  intros H. unfold RowColP, notP, orP. unfold ValidateRowCol in H. destruct (row <? 0); cbn [orb negb] in *; [exact H|]. eapply reach_rd; [apply p_rows|]. cbv beta.
  destruct (r_rows r <=? row); cbn [orb negb] in *; [exact H|]. destruct (col <? 0); cbn [orb negb] in *; [exact H|]. eapply reach_rd; [apply p_cols|]. exact H.
Qed.
Lemma r_layer r l k q : reach r (k (ValidateLayer r l)) q -> reach r (LayerP l k) q.
Proof. intros H. unfold LayerP, notP, orP. unfold ValidateLayer in H. destruct (l <=? 0); cbn [orb negb] in *; [exact H|]. eapply reach_rd; [apply p_lyrs|]. exact H. Qed.
Lemma r_index r i k q : reach r (k (ValidateIndex r i)) q -> reach r (IndexP i k) q.
Proof. intros H. unfold IndexP, notP, orP. unfold ValidateIndex in H. destruct (i <? 0); cbn [orb negb] in *; [exact H|]. eapply reach_rd; [apply p_cells|]. exact H. Qed.
Lemma r_search r ix : r_posidx r = Some ix -> forall fuel target left right k i, search fuel ix target left right = Ok i -> reach r (searchP fuel target left right k) (k i).
Proof.
  intros E. induction fuel as [|fuel IH]; intros target left right k i H; [discriminate|]. cbn [search searchP] in *. destruct (left <=? right); [|injection H as <-; constructor].
  set (mid := left + Z.quot (right - left) 2) in *. destruct (aget ix mid) as [v| |] eqn:A; cbn [obind] in H; [|discriminate|discriminate]. eapply reach_rd; [eapply p_ix; eassumption|]. destruct (target <? v); [apply IH, H|].
  eapply reach_rd; [eapply p_ix; eassumption|]. destruct (v <? target); [apply IH, H|]. injection H as <-. constructor.
Qed.
Lemma r_position r row col k i q : GetPosition r row col = Ok i -> reach r (k i) q -> reach r (GetPositionP row col k) q.
Proof.
  intros H Q. unfold GetPositionP, GetPosition in *. unfold orP at 1, notP at 1. apply r_validate. destruct (ValidateRasterData r); cbn [negb orb] in *; [|injection H as <-; exact Q].
  unfold notP at 1. apply r_rowcol. destruct (ValidateRowCol r row col); cbn [negb orb] in *; [|injection H as <-; exact Q]. eapply reach_rd; [apply p_cols|]. cbv beta zeta.
  unfold orP, notP. is p_calc. destruct (r_calc r); cbn [negb orb] in *; [|injection H as <-; exact Q]. is p_pos. destruct (isnull (r_pos r)); cbn [negb orb] in *; [injection H as <-; exact Q|].
  is p_posidx. destruct (r_posidx r) as [ix|] eqn:E; cbn [isnull negb orb deref obind] in *; [|injection H as <-; exact Q]. eapply reach_rd; [apply p_cells|]. eapply reach_trans; [eapply r_search; eassumption|exact Q].
Qed.

(** What a call does to the memory after these. *)
Definition shape r : Prop := full_grid r \/ exists ix, RasterSpec.compact r ix.
Definition cell_of r (i : Z) : Z * Z := let p := match r_posidx r with Some ix => nth (Z.to_nat i) ix 0 | None => i end in (p / r_cols r, p mod r_cols r).

Lemma shape_wf r : shape r -> wf r.
Proof. unfold shape, wf. tauto. Qed.
Lemma shape_cols r : shape r -> 0 < r_rows r /\ 0 < r_cols r.
Proof. intros [H|(ix & H)]; split; apply H. Qed.
Lemma shape_storage r : shape r -> storage r (r_ncells r).
Proof. intros [H|(ix & H)]; [destruct H as (_&_&_&->&H&_); exact H|apply H]. Qed.
Lemma shape_position r row col : shape r -> inside r row col -> exists i, GetPosition r row col = Ok i /\ (i = -1 \/ 0 <= i < r_ncells r /\ cell_of r i = (row, col)).
Proof.
  intros S I. pose proof (shape_cols r S) as [C0 C1]. assert (CO : ((row * r_cols r + col) / r_cols r, (row * r_cols r + col) mod r_cols r) = (row, col)).
  { destruct I as [I1 I2]. rewrite Z.add_comm, Z.div_add, Z.mod_add by lia. rewrite Z.div_small, Z.mod_small by lia. reflexivity. }
  destruct S as [F|(ix & C)].
  - exists (row * r_cols r + col). split; [apply GetPosition_full; assumption|]. right. destruct F as (_&_&_&N&_&_&P). unfold cell_of. rewrite P, N. split; [|exact CO]. destruct I. split; nia.
  - destruct (GetPosition_compact r ix row col C I) as [(i & E & B & N)|[E _]]; [|eauto]. exists i. split; [exact E|]. right. split; [exact B|]. destruct C as (_&_&_&_&_&_&_&P&_). unfold cell_of. rewrite P, (nth_error_nth _ _ _ N). exact CO.
Qed.
Lemma shape_cell r i : shape r -> 0 <= i < r_ncells r -> inside r (fst (cell_of r i)) (snd (cell_of r i)) /\ GetPosition r (fst (cell_of r i)) (snd (cell_of r i)) = Ok i.
Proof.
  intros S B. pose proof (shape_cols r S) as [C0 C1]. assert (X : forall p : Z, 0 <= p < r_rows r * r_cols r -> inside r (p / r_cols r) (p mod r_cols r) /\ (p / r_cols r) * r_cols r + p mod r_cols r = p).
  { intros p Bp. pose proof (Z.div_mod p (r_cols r) ltac:(lia)). pose proof (Z.mod_pos_bound p (r_cols r) C1). split; [split; [|lia]|lia]. split; [apply Z.div_pos; lia|apply Z.div_lt_upper_bound; lia]. }
  destruct S as [F|(ix & C)].
  - pose proof F as (_&_&_&N&_&_&P). unfold cell_of. rewrite P. cbn [fst snd]. destruct (X i ltac:(lia)) as [I E]. split; [exact I|]. rewrite (GetPosition_full r _ _ F I). f_equal. exact E.
  - pose proof C as (_&_&_&_&N&_&_&P&_&SO&FA). unfold cell_of. rewrite P. cbn [fst snd]. assert (NI : nth_error ix (Z.to_nat i) = Some (nth (Z.to_nat i) ix 0)) by (apply nth_error_nth'; lia).
    rewrite Forall_forall in FA. destruct (X (nth (Z.to_nat i) ix 0)) as [I E]; [apply FA; eapply nth_error_In, NI|]. split; [exact I|].
    destruct (GetPosition_compact r ix _ _ C I) as [(j & G & Bj & Nj)|[G NJ]]; rewrite E in *; [|exfalso; apply NJ; eapply nth_error_In, NI].
    rewrite G. f_equal. destruct (Z.lt_trichotomy i j) as [LT|[EQ|GT]]; [|congruence|].
    + pose proof (sorted_nth_lt _ _ _ _ _ SO NI Nj). lia.
    + pose proof (sorted_nth_lt _ _ _ _ _ SO Nj NI). lia.
Qed.

(** Values in memory. *)
Lemma shows_read m r i lyr x : shows m r -> read_cell r i lyr = Ok x -> m (cell (r_is2d r) i lyr) = Some (WT x).
Proof.
  unfold shows, read_cell, cell. destruct (r_is2d r).
  - intros S E. destruct (r_data2d r) as [d|]; cbn [deref obind] in E; [|discriminate]. destruct (aget d i) as [row| |] eqn:A; cbn [obind] in E; [|discriminate|discriminate]. eapply S; eauto.
  - intros S E. destruct (r_data r) as [d|]; cbn [deref obind] in E; [|discriminate]. eapply S; eauto.
Qed.
Lemma read_shows m r n : storage r n -> (forall i lyr x, layer_ok r lyr -> read_cell r i lyr = Ok x -> m (cell (r_is2d r) i lyr) = Some (WT x)) -> shows m r.
Proof.
  unfold shows, read_cell, cell, storage, layer_ok. destruct (r_is2d r).
  - intros (d & E & _ & F) H d' i row lyr x E' A1 A2. assert (d' = d) by congruence. subst d'. rewrite E in H. cbn [deref obind] in H. specialize (H i (lyr + 1) x). rewrite A1 in H. cbn [obind] in H. replace (lyr + 1 - 1) with lyr in H by lia. apply H; [|exact A2].
    apply aget_inv in A1, A2. destruct A1 as (_ & N1), A2 as (B & N2). pose proof (nth_error_In _ _ N1) as I. assert (B' : (Z.to_nat lyr < length row)%nat) by (apply nth_error_Some; congruence). rewrite Forall_forall in F. rewrite <- (F _ I). lia.
  - intros (L & d & E & _) H d' i x E' A1. assert (d' = d) by congruence. subst d'. rewrite E in H. cbn [deref obind] in H. apply (H i 1 x); [lia|exact A1].
Qed.

Lemma call_reach r c (k : answer T D -> prog) : shape r ->
  (exists a, @call_seq T D r c = Ok (r, a) /\ reach r (callP c k) (k a)) \/
  (exists l x, reach r (callP c k) (rdT l (fun x => k (AVal x))) /\ @call_seq T D r c = Ok (r, AVal x) /\ (forall m, holds m r -> m l = Some (WT x)) /\
     (l = F_nodata \/ exists i lyr, l = cell (r_is2d r) i lyr /\ 0 <= i < r_ncells r /\ match c with CValue row col _ => cell_of r i = (row, col) | CIndex j _ => j = i | _ => False end)) \/
  (exists row col v lyr i r', c = CSet row col v lyr /\ reach r (callP c k) (Wr (cell (r_is2d r) i lyr) (WT v) (k ADone)) /\ @call_seq T D r c = Ok (r', ADone) /\
     0 <= i < r_ncells r /\ layer_ok r lyr /\ cell_of r i = (row, col) /\ write_cell r i (lyr - 1) v = Ok r').
Proof.
  intros S. pose proof (shape_storage r S) as ST. pose proof (storage_valid _ _ ST) as V. assert (ND : forall m, holds m r -> m F_nodata = Some (WT (r_nodata r))) by (intros m H; apply H).
  assert (VAL : forall kk q, reach r (kk true) q -> reach r (ValidateP kk) q) by (intros kk q H; apply r_validate; rewrite V; exact H).
  destruct c as [row col lyr|j lyr|row col|row col v lyr].
  - right. left. cbn [callP call_seq]. unfold GetValueP. unfold GetValue. rewrite V. cbn [negb orb].
    destruct (ValidateRowCol r row col) eqn:RC; cbn [negb orb];
      [|exists F_nodata, (r_nodata r); split; [unfold orP at 1 2, notP; apply VAL; apply r_rowcol; rewrite RC; constructor|split; [reflexivity|split; [exact ND|left; reflexivity]]]].
    destruct (ValidateLayer r lyr) eqn:LY; cbn [negb orb];
      [|exists F_nodata, (r_nodata r); split; [unfold orP at 1 2, notP; apply VAL; apply r_rowcol; rewrite RC; apply r_layer; rewrite LY; constructor|split; [reflexivity|split; [exact ND|left; reflexivity]]]].
    assert (PRE : forall kk q, reach r (kk false) q -> reach r (orP (orP (notP ValidateP) (notP (RowColP row col))) (notP (LayerP lyr)) kk) q).
    { intros kk q H. unfold orP, notP. apply VAL. apply r_rowcol. rewrite RC. apply r_layer. rewrite LY. exact H. }
    apply vrc_true in RC. pose proof (proj1 (vl_true r lyr) LY) as L. 
    assert (POS : forall kk q, reach r (kk (r_calc r && (negb (isnull (r_pos r)) || negb (isnull (r_posidx r))))) q -> reach r (andP (isP F_calc) (orP (isP F_pos) (isP F_posidx)) kk) q).
    { intros kk q H. unfold andP, orP. is p_calc. destruct (r_calc r); cbn [andb] in H; [|exact H]. is p_pos. destruct (isnull (r_pos r)); cbn [negb orb] in H |- *; [is p_posidx; exact H|exact H]. }
    destruct (r_calc r && (negb (isnull (r_pos r)) || negb (isnull (r_posidx r)))) eqn:CP.
    + destruct (shape_position r row col S RC) as (i & E & Q). rewrite E. cbn [obind]. destruct Q as [->|[B CO]].
      * exists F_nodata, (r_nodata r). split; [|split; [reflexivity|split; [exact ND|left; reflexivity]]]. apply PRE. cbv beta iota. apply POS. eapply r_position; [exact E|]. constructor.
      * destruct (i <? 0) eqn:NI; [lia|]. unfold GetValueByIndex. rewrite V, LY. assert (VI : ValidateIndex r i = true) by (apply vi_true; exact B). rewrite VI. cbn [negb orb].
        destruct (read_storage r (r_ncells r) i lyr ST B L) as (x & RX). rewrite RX. cbn [obind]. exists (cell (r_is2d r) i lyr), x. split; [|split; [reflexivity|split]].
        -- apply PRE. cbv beta iota. apply POS. eapply r_position; [exact E|]. cbv beta. rewrite NI. unfold GetValueByIndexP, orP, notP. apply VAL. apply r_index. rewrite VI. apply r_layer. rewrite LY. cbn [negb]. is p_2d. constructor.
        -- intros m H. apply shows_read; [apply H|exact RX].
        -- right. exists i, lyr. auto.
    + assert (F : full_grid r). { destruct S as [F|(ix & C)]; [exact F|]. destruct C as (_&_&_&_&_&_&CA&PI&PO&_). rewrite CA, PO in CP. discriminate. }
      set (i := row * r_cols r + col). assert (B : 0 <= i < r_ncells r /\ cell_of r i = (row, col)).
      { destruct (shape_position r row col S RC) as (i' & E & Q). rewrite (GetPosition_full r row col F RC) in E. injection E as <-. fold i in Q. destruct Q as [Q|Q]; [|exact Q]. destruct RC. unfold i in Q. nia. }
      destruct (read_storage r (r_ncells r) i lyr ST (proj1 B) L) as (x & RX). rewrite RX. cbn [obind]. exists (cell (r_is2d r) i lyr), x. split; [|split; [reflexivity|split]].
      * apply PRE. cbv beta iota. apply POS. is p_2d. eapply reach_rd; [apply p_cols|]. constructor.
      * intros m H. apply shows_read; [apply H|exact RX].
      * right. exists i, lyr. split; [reflexivity|exact B].
  - right. left. cbn [callP call_seq]. unfold GetValueByIndexP, GetValueByIndex. rewrite V. cbn [negb orb].
    destruct (ValidateIndex r j) eqn:VI; cbn [negb orb];
      [|exists F_nodata, (r_nodata r); split; [unfold orP, notP; apply VAL; apply r_index; rewrite VI; constructor|split; [reflexivity|split; [exact ND|left; reflexivity]]]].
    destruct (ValidateLayer r lyr) eqn:LY; cbn [negb orb];
      [|exists F_nodata, (r_nodata r); split; [unfold orP, notP; apply VAL; apply r_index; rewrite VI; apply r_layer; rewrite LY; constructor|split; [reflexivity|split; [exact ND|left; reflexivity]]]].
    pose proof (proj1 (vi_true r j) VI) as B. pose proof (proj1 (vl_true r lyr) LY) as L. destruct (read_storage r (r_ncells r) j lyr ST B L) as (x & RX). rewrite RX. cbn [obind]. exists (cell (r_is2d r) j lyr), x. split; [|split; [reflexivity|split]].
    + unfold orP, notP. apply VAL. apply r_index. rewrite VI. apply r_layer. rewrite LY. cbn [negb]. is p_2d. constructor.
    + intros m H. apply shows_read; [apply H|exact RX].
    + right. exists j, lyr. auto.
  - left. cbn [callP call_seq]. assert (G : exists i, GetPosition r row col = Ok i).
    { destruct (ValidateRowCol r row col) eqn:RC; [apply vrc_true in RC; destruct (shape_position r row col S RC) as (i & E & _); eauto|]. apply vrc_false in RC. rewrite (GetPosition_outside r row col RC). eauto. }
    destruct G as (i & E). rewrite E. cbn [obind]. exists (APos i). split; [reflexivity|]. eapply r_position; [exact E|]. constructor.
  - cbn [callP call_seq]. unfold SetValueP. unfold SetValue. rewrite V. cbn [negb orb].
    destruct (ValidateRowCol r row col) eqn:RC; cbn [negb orb];
      [|left; exists ADone; split; [reflexivity|unfold orP, notP; apply VAL; apply r_rowcol; rewrite RC; constructor]].
    destruct (ValidateLayer r lyr) eqn:LY; cbn [negb orb];
      [|left; exists ADone; split; [reflexivity|unfold orP, notP; apply VAL; apply r_rowcol; rewrite RC; apply r_layer; rewrite LY; constructor]].
    assert (PRE : forall kk q, reach r (kk false) q -> reach r (orP (orP (notP ValidateP) (notP (RowColP row col))) (notP (LayerP lyr)) kk) q).
    { intros kk q H. unfold orP, notP. apply VAL. apply r_rowcol. rewrite RC. apply r_layer. rewrite LY. exact H. }
    apply vrc_true in RC. pose proof (proj1 (vl_true r lyr) LY) as L. destruct (shape_position r row col S RC) as (i & E & Q). rewrite E. cbn [obind]. destruct Q as [->|[B CO]].
    + left. exists ADone. split; [reflexivity|]. apply PRE. cbv beta iota. eapply r_position; [exact E|]. constructor.
    + right. right. destruct (i =? -1) eqn:NI; [lia|]. destruct (write_ok r (r_ncells r) i lyr v ST B L) as (r' & W & _). rewrite W. cbn [obind]. exists row, col, v, lyr, i, r'. split; [reflexivity|].
      split; [|split; [reflexivity|split; [exact B|split; [exact L|split; [exact CO|exact W]]]]]. apply PRE. cbv beta iota. eapply r_position; [exact E|]. cbv beta. rewrite NI. is p_2d. constructor.
Qed.

(** A write. *)
Lemma cell_field two i lyr l : fst (fst l) <> A_raster -> fst (fst l) <> A_raster2 -> cell two i lyr <> l.
Proof. unfold cell. destruct two; intros A B <-; cbn in *; congruence. Qed.
Lemma write_frame r i j v r' : write_cell r i j v = Ok r' -> same_frame r r' /\ isnull (r_data r') = isnull (r_data r) /\ isnull (r_data2d r') = isnull (r_data2d r).
Proof.
  unfold write_cell. destruct (r_is2d r).
  - destruct (r_data2d r) as [d|] eqn:E; cbn [deref obind]; [|discriminate]. destruct (aget d i) as [row| |]; cbn [obind]; [|discriminate|discriminate]. destruct (aset row j v) as [c| |]; cbn [obind]; [|discriminate|discriminate].
    destruct (aset d i c) as [d'| |]; cbn [obind]; [|discriminate|discriminate]. intros H. injection H as <-. split; [apply set_cells_frame|]. cbn. auto.
  - destruct (r_data r) as [d|] eqn:E; cbn [deref obind]; [|discriminate]. destruct (aset d i v) as [d'| |]; cbn [obind]; [|discriminate|discriminate]. intros H. injection H as <-. split; [apply set_cells_frame|]. cbn. auto.
Qed.
Lemma write_holds m r i lyr v r' : shape r -> holds m r -> 0 <= i < r_ncells r -> layer_ok r lyr -> write_cell r i (lyr - 1) v = Ok r' ->
  m (cell (r_is2d r) i lyr) <> None /\ holds (set m (cell (r_is2d r) i lyr) (WT v)) r' /\ shape r' /\ (forall l z, pinned r' l z <-> pinned r l z) /\ r_is2d r' = r_is2d r /\ r_ncells r' = r_ncells r /\ cell_of r' = cell_of r.
Proof.
  intros S H B L W. pose proof (shape_storage r S) as ST. destruct (write_frame r i _ v r' W) as (F & N1 & N2). destruct (frame_fields _ _ F) as (E1&E2&E3&E4&E5&E6&E7&E8&E9).
  destruct (write_ok r (r_ncells r) i lyr v ST B L) as (r2 & W2 & _ & ST' & RD). assert (r2 = r') by congruence. subst r2.
  assert (PI : forall a b, same_frame a b -> isnull (r_data b) = isnull (r_data a) -> isnull (r_data2d b) = isnull (r_data2d a) -> forall l z, pinned b l z -> pinned a l z).
  { intros a b FF M1 M2 l z P. destruct (frame_fields _ _ FF) as (G1&G2&G3&G4&G5&G6&G7&G8&G9). destruct P; rewrite ?M1, ?M2, ?G1, ?G2, ?G3, ?G4, ?G5, ?G7, ?G8, ?G9; try constructor. eapply p_ix; [|eassumption]. congruence. }
  assert (FB : same_frame r' r) by (unfold same_frame in *; rewrite F; destruct r; reflexivity).
  split; [|split; [|split; [|split; [|split; [exact E5|split; [exact E4|unfold cell_of; rewrite E8, E2; reflexivity]]]]]].
  - destruct (read_storage r (r_ncells r) i lyr ST B L) as (x & RX). rewrite (shows_read m r i lyr x); [discriminate|apply H|exact RX].
  - destruct H as (H1&H2&H3&H4&H5&H6&H7&H8&H9&H10&H11&H12&H13). unfold holds. rewrite E1, E2, E3, E4, E5, E6, E7, E8, E9, N1, N2.
    rewrite !set_other by (apply cell_field; discriminate). repeat (split; [assumption|]). split.
    + intros ix j z P A. rewrite set_other by (apply cell_field; discriminate). eapply H12; eassumption.
    + apply (read_shows _ r' (r_ncells r)); [exact ST'|]. intros i' l' x L' R'. rewrite E5. apply (layer_frame _ _ _ F) in L'. rewrite (RD i' l' L') in R'. destruct ((i' =? i) && (l' =? lyr)) eqn:Q.
      * injection R' as <-. replace i' with i by lia. replace l' with lyr by lia. apply set_same.
      * rewrite set_other; [apply shows_read; assumption|]. unfold cell. destruct (r_is2d r) eqn:D2; [intros Z; injection Z; lia|]. intros Z. injection Z as ->. unfold storage in ST. rewrite D2 in ST. destruct ST as (LL & _). unfold layer_ok in L, L'. lia.
  - destruct S as [SF|(ix & C)]; [left|right; exists ix].
    + apply (frame_full r r' F); [|exact SF]. destruct SF as (_&_&_&N&_). rewrite <- N. exact ST'.
    + apply (frame_compact r r' ix F ST' C).
  - intros l z. split; apply PI; auto.
Qed.
End S.
