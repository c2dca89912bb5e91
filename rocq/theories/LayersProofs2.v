(** Layers read from files: one layer after the other. *)
From Coq Require Import ZArith Reals Lia Lra Ascii String List Bool Permutation ZifyBool.
From Flocq Require Import Core BinarySingleNaN.
From Verif Require Import Base ListLib StrModel MapModel BasicModel FloatModel FloatProofs TypeModel CoordFloatModel CoordFloatSpec CoordFloatProofs
  FsModel RasterModel RasterSpec CopyModel AscModel AscSpec AscProofs AscProofs2 CellModel GridfsModel LayersModel LayersSpec LayersProofs.
Import ListNotations.
Open Scope Z_scope.
Open Scope outcome_scope.

Lemma zseq_mem n j : In j (zseq n) <-> 0 <= j < n.
Proof.
  unfold zseq. rewrite in_map_iff. split.
  - intros (x & <- & I). apply in_seq in I. lia.
  - intros I. exists (Z.to_nat j). split; [lia|]. apply in_seq. lia.
Qed.

Section File.
Variables (own : smap f64) (g : fgeo) (nd : num) (l : flayer) (h : smap f64).
Hypotheses (OG : own_geo own = Ok g) (P : proper l) (HL : header_of h (fl_geo l) (fl_nodata l)).

(** The value for cell [k] of the grid with [cols] columns. *)
Definition value_at (k : Z) : num :=
  let xy := fCoordinate g (k / fg_cols g) (k mod fg_cols g) in layer_value l nd (fst xy) (snd xy).
Definition seen_at (k : Z) : Prop :=
  let xy := fCoordinate g (k / fg_cols g) (k mod fg_cols g) in exists v, seen l nd (fst xy) (snd xy) v.

Lemma add_at row col cell lyr d : 0 <= col < fg_cols g -> seen_at (row * fg_cols g + col) ->
  AddOtherLayer own nd row col cell lyr h (Some (fl_vals l)) d = put d cell lyr (value_at (row * fg_cols g + col)).
Proof using OG P HL.
  intros C (v & S). unfold value_at.
  assert (E1 : (row * fg_cols g + col) / fg_cols g = row) by (symmetry; apply Z.div_unique with col; lia).
  assert (E2 : (row * fg_cols g + col) mod fg_cols g = col) by (symmetry; apply Z.mod_unique with row; lia).
  rewrite E1, E2 in *. rewrite (seen_value _ _ _ _ _ P S). eapply add_seen; eauto.
Qed.

Variables (m k : nat) (v0 : nat -> num).
Hypotheses (K : k <> 0%nat) (KM : (k < m)%nat).

(** *** over rows *)
Definition row_value (c : nat) : num := if cells_equal nd (v0 c) then nd else value_at (Z.of_nat c).

Lemma row_step n i d : n = (Z.to_nat (fg_rows g * fg_cols g)) -> 0 < fg_cols g -> (Z.of_nat i < fg_rows g) -> table n m v0 d ->
  (forall c, (c < n)%nat -> cells_equal nd (v0 c) = false -> seen_at (Z.of_nat c)) ->
  exists d', by_row own nd (fg_cols g) (Z.of_nat k) h (Some (fl_vals l)) d i = Ok d' /\
    wrote k row_value (fun c => existsb (fun j => Z.of_nat c =? Z.of_nat i * fg_cols g + j) (zseq (fg_cols g))) d d'.
Proof using OG P HL K KM.
  intros EN C0 I T SA. unfold by_row.
  apply (loop_wrote _ (fun j c => Z.of_nat c =? Z.of_nat i * fg_cols g + j) k row_value n m v0 K (zseq (fg_cols g)) d T).
  intros d1 j J T1. apply zseq_mem in J. pose proof T1 as [LN TC].
  set (c := Z.to_nat (Z.of_nat i * fg_cols g + j)). assert (EC : Z.of_nat i * fg_cols g + j = Z.of_nat c) by (unfold c; nia).
  assert (CN : (c < n)%nat) by (subst n; unfold c; apply Z2Nat.inj_lt; nia).
  destruct (nth_error d1 c) as [row|] eqn:ER; [|apply nth_error_None in ER; lia]. destruct (TC c row ER) as [LR R0].
  rewrite EC. rewrite (aget_ok d1 _ row) by (rewrite ?Nat2Z.id; auto; lia). cbn [obind].
  rewrite (aget_ok row 0 (v0 c)) by (exact R0 || lia). cbn [obind].
  destruct (put_wrote d1 c k row_value row ER ltac:(lia)) as (d2 & E2 & W2). exists d2. split.
  - rewrite <- E2. unfold row_value. destruct (cells_equal nd (v0 c)) eqn:CE; [reflexivity|].
    rewrite <- EC. rewrite add_at; [reflexivity|lia|]. rewrite EC. exact (SA c CN CE).
  - eapply wrote_ext; [|exact W2]. intros x _. cbn beta. lia.
Qed.

Lemma rows_loop n ord d : n = (Z.to_nat (fg_rows g * fg_cols g)) -> 0 < fg_rows g -> 0 < fg_cols g -> schedule (fg_rows g) ord -> table n m v0 d ->
  (forall c, (c < n)%nat -> cells_equal nd (v0 c) = false -> seen_at (Z.of_nat c)) ->
  exists d', ofold (by_row own nd (fg_cols g) (Z.of_nat k) h (Some (fl_vals l))) ord d = Ok d' /\ wrote k row_value (fun _ => true) d d'.
Proof using OG P HL K KM.
  intros EN R0 C0 SC T SA. unfold schedule in SC.
  destruct (loop_wrote (by_row own nd (fg_cols g) (Z.of_nat k) h (Some (fl_vals l)))
    (fun i c => existsb (fun j => Z.of_nat c =? Z.of_nat i * fg_cols g + j) (zseq (fg_cols g))) k row_value n m v0 K ord d T) as (d' & E & W).
  - intros d1 i I T1. apply row_step with (n := n); auto. apply (Permutation_in _ SC) in I. apply in_seq in I. lia.
  - exists d'. split; [exact E|]. eapply covered_all; [|exact W]. intros c CN. destruct T as [LN _]. rewrite LN in CN.
    assert (B : 0 <= Z.of_nat c < fg_rows g * fg_cols g) by lia.
    pose proof (Z.div_mod (Z.of_nat c) (fg_cols g) ltac:(lia)) as DM. pose proof (Z.mod_pos_bound (Z.of_nat c) (fg_cols g) C0) as MB.
    assert (DB : 0 <= Z.of_nat c / fg_cols g < fg_rows g) by (split; [apply Z.div_pos; lia|apply Z.div_lt_upper_bound; lia]).
    exists (Z.to_nat (Z.of_nat c / fg_cols g)). split.
    + apply (Permutation_in _ (Permutation_sym SC)). apply in_seq. lia.
    + apply existsb_exists. exists (Z.of_nat c mod fg_cols g). split; [apply zseq_mem; lia|]. rewrite Z2Nat.id by lia. lia.
Qed.

(** *** over positions *)
Lemma positions_loop ks ord d : 0 < fg_cols g -> schedule (Z.of_nat (List.length ks)) ord -> table (List.length ks) m v0 d ->
  (forall c, In c ks -> 0 <= c /\ seen_at c) ->
  exists d', ofold (by_position own nd (Some ks) (fg_cols g) (Z.of_nat k) h (Some (fl_vals l))) ord d = Ok d' /\
    wrote k (fun i => value_at (nth i ks 0)) (fun _ => true) d d'.
Proof using OG P HL K KM.
  intros C0 SC T SA. unfold schedule in SC. rewrite Nat2Z.id in SC.
  destruct (loop_wrote (by_position own nd (Some ks) (fg_cols g) (Z.of_nat k) h (Some (fl_vals l)))
    (fun i c => Nat.eqb i c) k (fun i => value_at (nth i ks 0)) _ m v0 K ord d T) as (d' & E & W).
  - intros d1 i I T1. apply (Permutation_in _ SC) in I. apply in_seq in I. pose proof T1 as [LN TC].
    destruct (nth_error ks i) as [c|] eqn:EC; [|apply nth_error_None in EC; lia].
    destruct (nth_error d1 i) as [row|] eqn:ER; [|apply nth_error_None in ER; lia]. destruct (TC i row ER) as [LR R0].
    destruct (put_wrote d1 i k (fun i => value_at (nth i ks 0)) row ER ltac:(lia)) as (d2 & E2 & W2). exists d2. split; [|exact W2].
    rewrite <- E2. cbn beta. rewrite (nth_error_nth _ _ 0 EC). destruct (SA c (nth_error_In _ _ EC)) as [NN SE].
    unfold by_position. cbn [deref obind]. rewrite (aget_ok ks _ c) by (rewrite ?Nat2Z.id; auto; lia). cbn [obind].
    rewrite Z.quot_div_nonneg, Z.rem_mod_nonneg by lia.
    assert (EE : c / fg_cols g * fg_cols g + c mod fg_cols g = c) by (pose proof (Z.div_mod c (fg_cols g) ltac:(lia)); lia).
    rewrite add_at; rewrite ?EE; [reflexivity| |exact SE]. apply Z.mod_pos_bound. exact C0.
  - exists d'. split; [exact E|]. eapply covered_all; [|exact W]. intros c CN. destruct T as [LN _]. rewrite LN in CN.
    exists c. split; [|apply Nat.eqb_refl]. apply (Permutation_in _ (Permutation_sym SC)). apply in_seq. lia.
Qed.
End File.

(** ** All further layers *)
Section Files.
Variables (read : bytes -> smap f64 -> outcome layer_read) (own : smap f64) (cols : Z) (r : raster num).
Variable orders : nat -> list nat.
Variables (n m : nat) (v0 : nat -> num).
(** What layer [l] gives to the stored cell number [i]. *)
Variable cellval : flayer -> nat -> num.

Definition layer_step (k : nat) (h : smap f64) (data : option (list num)) (d : list (list num)) : outcome (list (list num)) :=
  ofold (if negb (isnull (r_pos r)) || negb (isnull (r_posidx r))
         then by_position own (r_nodata r) (r_posidx r) cols (Z.of_nat k) h data
         else by_row own (r_nodata r) cols (Z.of_nat k) h data) (orders k) d.

Definition handled (l : flayer) : Prop := forall k h d, header_of h (fl_geo l) (fl_nodata l) -> k <> 0%nat -> (k < m)%nat -> table n m v0 d ->
  exists d', layer_step k h (Some (fl_vals l)) d = Ok d' /\ wrote k (cellval l) (fun _ => true) d d'.

Definition files_step (st : nat * list (list num)) (file : bytes) : outcome (nat * list (list num)) :=
  let k := fst st in
  let* got := read file [] in
  let '(_, h, data) := got in
  let* d' := layer_step k h data (snd st) in
  Ok (S k, d').

Lemma files_ok : forall files ls, Forall2 (fun f l => gives (read f []) l /\ handled l) files ls ->
  forall k d, k <> 0%nat -> (k + List.length files <= m)%nat -> table n m v0 d ->
  exists d', ofold files_step files (k, d) = Ok ((k + List.length files)%nat, d') /\ table n m v0 d' /\
    forall i c, nth_error d i = Some c -> exists c', nth_error d' i = Some c' /\
      (forall j, (j < k)%nat -> nth_error c' j = nth_error c j) /\
      forall j l, nth_error ls j = Some l -> nth_error c' (k + j) = Some (cellval l i).
Proof.
  induction 1 as [|f l files ls [(h & E & H & _) HD] F IH]; intros k d K KM T.
  - exists d. cbn [ofold List.length]. rewrite Nat.add_0_r. split; [reflexivity|]. split; [exact T|]. intros i c EC. exists c. split; [exact EC|].
    split; [reflexivity|]. intros j l EJ. destruct j; discriminate.
  - cbn [List.length] in *. destruct (HD k h d H K ltac:(lia) T) as (d1 & E1 & W1).
    cbn [ofold]. unfold files_step at 1. cbn [fst snd]. rewrite E. cbn [obind]. rewrite E1. cbn [obind].
    pose proof (wrote_table _ _ _ _ _ _ _ _ K T W1) as T1.
    destruct (IH (S k) d1 ltac:(lia) ltac:(lia) T1) as (d2 & E2 & T2 & A2). exists d2.
    rewrite E2. split; [f_equal; f_equal; lia|]. split; [exact T2|]. intros i c EC.
    destruct W1 as [_ W1]. destruct (W1 i c EC) as (c1 & EC1 & LC1 & A1). destruct (A2 i c1 EC1) as (c2 & EC2 & B2 & D2).
    exists c2. split; [exact EC2|]. split.
    + intros j J. rewrite B2, A1 by lia. replace (Nat.eqb j k) with false by (symmetry; apply Nat.eqb_neq; lia). reflexivity.
    + intros [|j] l' EJ; cbn [nth_error] in EJ.
      * injection EJ as <-. rewrite Nat.add_0_r, B2, A1, Nat.eqb_refl by lia. reflexivity.
      * replace (k + S j)%nat with (S k + j)%nat by lia. apply D2. exact EJ.
Qed.

Lemma add_layers_ok rows files ls d : Forall2 (fun f l => gives (read f []) l /\ handled l) files ls ->
  (1 + List.length files <= m)%nat -> table n m v0 d ->
  exists d', add_layers read orders own r rows cols files d = Ok d' /\ table n m v0 d' /\
    forall i c', nth_error d' i = Some c' -> forall j l, nth_error ls j = Some l -> nth_error c' (1 + j) = Some (cellval l i).
Proof.
  intros F M T. destruct (files_ok files ls F 1%nat d ltac:(lia) M T) as (d' & E & T' & A). exists d'. split; [|split; [exact T'|]].
  - unfold add_layers. etransitivity; [exact (f_equal (fun x => obind x _) E)|reflexivity].
  - intros i c' EC j l EJ. destruct (nth_error d i) as [c|] eqn:EI.
    + destruct (A i c EI) as (c2 & EC2 & _ & D). rewrite EC in EC2. injection EC2 as <-. exact (D j l EJ).
    + exfalso. apply nth_error_None in EI. assert (i < List.length d')%nat by (apply nth_error_Some; congruence). destruct T, T'. lia.
Qed.
End Files.

(** ** The first layer *)
(** [raster_2d_[i][0] = raster_[i]] for all cells. *)
Lemma first_loop vs m nd ord : (0 < m)%nat -> schedule (Z.of_nat (List.length vs)) ord ->
  exists d, ofold (fun d i => let* ws := deref (Some vs) in let* v := aget ws (Z.of_nat i) in put d (Z.of_nat i) 0 v) ord
    (repeat (repeat nd m) (List.length vs)) = Ok d /\ table (List.length vs) m (fun i => nth i vs nd) d.
Proof.
  intros M SC. unfold schedule in SC. rewrite Nat2Z.id in SC.
  set (step := fun d i => let* ws := deref (Some vs) in let* v := aget ws (Z.of_nat i) in put d (Z.of_nat i) 0 v).
  set (ok := fun d : list (list num) => List.length d = List.length vs /\ forall i c, nth_error d i = Some c -> List.length c = m).
  assert (L : forall o d, (forall i, In i o -> (i < List.length vs)%nat) -> ok d -> exists d', ofold step o d = Ok d' /\
     wrote 0 (fun i => nth i vs nd) (fun c => existsb (fun i => Nat.eqb i c) o) d d').
  { induction o as [|i o IH]; intros d B OK; cbn [ofold existsb].
    - exists d. split; [reflexivity|]. apply wrote_none. reflexivity.
    - specialize (B i (or_introl eq_refl)) as Bi. destruct OK as [LD LC].
      destruct (nth_error d i) as [c|] eqn:EC; [|apply nth_error_None in EC; lia].
      destruct (nth_error vs i) as [v|] eqn:EV; [|apply nth_error_None in EV; lia].
      destruct (put_wrote d i 0 (fun i => nth i vs nd) c EC) as (d1 & E1 & W1). { rewrite (LC i c EC). exact M. }
      assert (ES : step d i = Ok d1).
      { unfold step. cbn [deref obind]. rewrite (aget_ok vs _ v) by (rewrite ?Nat2Z.id; auto; lia). cbn [obind]. rewrite <- E1. cbn beta. rewrite (nth_error_nth _ _ nd EV). reflexivity. }
      rewrite ES. cbn [obind]. destruct (IH d1) as (d2 & E2 & W2).
      + intros j J. apply B. right. exact J.
      + destruct W1 as [L1 W1]. split; [congruence|]. intros j c1 H1. destruct (nth_error d j) as [c0|] eqn:E0.
        * destruct (W1 j c0 E0) as (c2 & H2 & N2 & _). assert (c2 = c1) by congruence. subst c2. rewrite N2. exact (LC j c0 E0).
        * apply nth_error_None in E0. assert (j < List.length d1)%nat by (apply nth_error_Some; congruence). lia.
      + exists d2. split; [exact E2|]. exact (wrote_trans _ _ _ _ _ _ _ W1 W2). }
  destruct (L ord (repeat (repeat nd m) (List.length vs))) as (d & E & W).
  - intros i I. apply (Permutation_in _ SC) in I. apply in_seq in I. lia.
  - split; [apply repeat_length|]. intros i c H. apply nth_error_In, repeat_spec in H. subst c. apply repeat_length.
  - exists d. split; [exact E|]. destruct W as [LD W]. rewrite repeat_length in LD. split; [exact LD|].
    intros i c H. assert (I : (i < List.length vs)%nat) by (rewrite <- LD; apply nth_error_Some; congruence).
    destruct (W i (repeat nd m)) as (c2 & H2 & N2 & A). { rewrite nth_error_repeat; auto. }
    assert (c2 = c) by congruence. subst c2. rewrite repeat_length in N2. split; [exact N2|]. rewrite A.
    assert (X : existsb (fun j => Nat.eqb j i) ord = true).
    { apply existsb_exists. exists i. split; [|apply Nat.eqb_refl]. apply (Permutation_in _ (Permutation_sym SC)). apply in_seq. lia. }
    rewrite X. reflexivity.
Qed.
