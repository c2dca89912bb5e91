(** Lemmas about writing raster objects as GeoTIFF files. *)
From Coq Require Import ZArith Reals Ascii String List Bool Sorted Lia Lra ZifyBool ZifyNat Permutation.
From Flocq Require Import Core BinarySingleNaN.
From Verif Require Import Base ListLib StrModel StrSpec FsModel MapModel MapProofs RasterModel RasterSpec RasterProofs RasterProofs2 RasterProofs3 BasicModel FloatModel FloatProofs
  CoordFloatModel CoordFloatProofs TypeModel MongoModel CopyModel AscModel AscSpec AscProofs AscProofs2 CellModel CellSpec CellProofs CellProofs2 GdalModel GdalSpec GdalProofs.
Import ListNotations.
Open Scope Z_scope.
Open Scope outcome_scope.

Lemma ofold_ext {A B} (f g : A -> B -> outcome A) : forall l a, (forall x a, In x l -> f a x = g a x) -> ofold f l a = ofold g l a.
Proof.
  induction l as [|x l IH]; intros a H; cbn [ofold]; auto. rewrite H by (left; reflexivity). destruct (g a x); cbn [obind]; auto.
  apply IH. intros; apply H; right; assumption.
Qed.

(** ** The full grid of a layer *)
Section Fill.
Variables (r : raster num) (ix : list Z) (n lyr : Z).
Hypotheses (NI : NoDup ix) (RI : Forall (fun k => 0 <= k < n) ix) (RD : forall k, 0 <= k < Z.of_nat (length ix) -> exists v, read_cell r k lyr = Ok v).

Definition put (b : option (list num)) (k : Z) : outcome (option (list num)) :=
  let* i := aget ix k in let* v := read_cell r k lyr in let* a := deref b in let* a' := aset a i v in Ok (Some a').

Lemma put_all b : Z.of_nat (length b) = n -> forall m, (m <= length ix)%nat ->
  exists b', ofold put (zseq (Z.of_nat m)) (Some b) = Ok (Some b') /\ Z.of_nat (length b') = n /\
    (forall k i, (k < m)%nat -> nth_error ix k = Some i -> exists v, read_cell r (Z.of_nat k) lyr = Ok v /\ nth_error b' (Z.to_nat i) = Some v) /\
    (forall j, (forall k i, (k < m)%nat -> nth_error ix k = Some i -> j <> Z.to_nat i) -> nth_error b' j = nth_error b j).
Proof.
  intros LB. induction m as [|m IH]; intros M.
  - exists b. rewrite zseq_0 by lia. split; [reflexivity|]. split; [exact LB|]. split; [intros; lia|reflexivity].
  - destruct IH as (b' & E & L & H1 & H2); [lia|]. replace (Z.of_nat (S m)) with (Z.of_nat m + 1) by lia. rewrite zseq_S, ofold_app, E by lia. cbn [obind ofold].
    destruct (nth_error ix m) as [i|] eqn:EI; [|apply nth_error_None in EI; lia].
    pose proof (proj1 (Forall_forall _ _) RI i (nth_error_In _ _ EI)) as BI. cbv beta in BI. destruct (RD (Z.of_nat m) ltac:(lia)) as [v EV].
    unfold put at 1. rewrite (aget_nat _ _ _ EI), EV. cbn [obind deref]. rewrite aset_ok by lia. cbn [obind]. eexists. split; [reflexivity|].
    split; [rewrite upd_length; exact L|]. split.
    + intros k j K EK. rewrite upd_nth. destruct (Nat.eq_dec k m) as [->|NE].
      * assert (j = i) by congruence. subst j. exists v. split; [exact EV|]. rewrite Nat.eqb_refl. replace (Z.to_nat i <? length b')%nat with true by lia. reflexivity.
      * destruct (H1 k j ltac:(lia) EK) as (w & W1 & W2). exists w. split; [exact W1|].
        pose proof (proj1 (Forall_forall _ _) RI j (nth_error_In _ _ EK)) as BJ. cbv beta in BJ.
        destruct (Nat.eqb_spec (Z.to_nat j) (Z.to_nat i)) as [X|X]; [|exact W2]. exfalso. apply NE. assert (j = i) by lia. subst j.
        apply (proj1 (NoDup_nth_error ix) NI); [lia|congruence].
    + intros j HJ. rewrite upd_nth. destruct (Nat.eqb_spec j (Z.to_nat i)) as [X|X]; [exfalso; apply (HJ m i); auto|].
      apply H2. intros k a K EK. apply (HJ k a); auto.
Qed.
End Fill.

Lemma sorted_nodup l : StronglySorted Z.lt l -> NoDup l.
Proof.
  induction 1 as [|a l S IH F]; constructor; auto. intros I. pose proof (proj1 (Forall_forall _ _) F a I). cbv beta in *. lia.
Qed.

(** What [data_1d] holds before a layer: nothing, or NoData wherever the layer
    will not write. *)
Definition clean (r : raster num) (direct : bool) (ix : list Z) (n : Z) (buf : option (list num)) : Prop :=
  match buf with
  | None => True
  | Some b => Z.of_nat (length b) = n /\ (direct = false -> forall j, 0 <= j < n -> ~ In j ix -> nth_error b (Z.to_nat j) = Some (r_nodata r))
  end.

Definition direct_of (r : raster num) : bool := isnull (r_pos r) || isnull (r_posidx r).

Lemma inside_number {T} (r : raster T) row col : inside r row col -> 0 < r_cols r -> 0 <= row * r_cols r + col < r_rows r * r_cols r.
Proof. unfold inside. nia. Qed.

Lemma layer_ok_full r lyr buf : full_grid r -> layer_ok r lyr -> clean r true [] (r_rows r * r_cols r) buf ->
  exists b, layer_buffer r true (r_rows r * r_cols r) lyr buf = Ok (Some b) /\ layer_values r lyr b /\ clean r true [] (r_rows r * r_cols r) (Some b).
Proof.
  intros F L C. pose proof F as (R & Cc & NL & NC & ST & _). set (n := r_rows r * r_cols r) in *. assert (N : 0 < n) by nia.
  assert (B : exists b, init1d buf n (r_nodata r) = Some b /\ Z.of_nat (length b) = n).
  { destruct buf as [b|]; cbn in C |- *; [exists b; tauto|]. replace (n <=? 0) with false by lia. eexists. split; [reflexivity|]. rewrite repeat_length. lia. }
  destruct B as (b & EB & LB). unfold layer_buffer. rewrite EB.
  destruct (put_all r (zseq n) n lyr) with (b := b) (m := Z.to_nat n) as (b' & E & L' & H1 & _).
  - apply NoDup_zseq. - apply Forall_forall. intros k K. apply zseq_In in K. exact K.
  - intros k K. rewrite zseq_length in K. apply (read_storage r n); auto. lia. - exact LB. - rewrite zseq_length. lia.
  - rewrite Z2Nat.id in E by lia. exists b'. split; [|split; [split; [exact L'|]|split; [exact L'|discriminate]]].
    + etransitivity; [|exact E]. apply ofold_ext. intros k a K. apply zseq_In in K. unfold put. rewrite (aget_ok (zseq n) k k) by (auto using zseq_nth; lia). reflexivity.
    + intros i j I. pose proof (inside_number r i j I Cc) as P. fold n in P. destruct (H1 (Z.to_nat (i * r_cols r + j)) (i * r_cols r + j)) as (v & V1 & V2); [lia|apply zseq_nth; exact P|].
      exists v. split; [exact V2|]. rewrite GetValue_full by assumption. rewrite Z2Nat.id in V1 by lia. exact V1.
Qed.

Lemma layer_ok_compact r ix lyr buf : compact r ix -> layer_ok r lyr -> clean r false ix (r_rows r * r_cols r) buf ->
  exists b, layer_buffer r false (r_rows r * r_cols r) lyr buf = Ok (Some b) /\ layer_values r lyr b /\ clean r false ix (r_rows r * r_cols r) (Some b).
Proof.
  intros F L C. pose proof F as (R & Cc & NL & N0 & NC & ST & CA & PI & PO & SO & RI). set (n := r_rows r * r_cols r) in *. assert (N : 0 < n) by nia.
  assert (B : exists b, init1d buf n (r_nodata r) = Some b /\ Z.of_nat (length b) = n /\ (forall j, 0 <= j < n -> ~ In j ix -> nth_error b (Z.to_nat j) = Some (r_nodata r))).
  { destruct buf as [b|]; cbn in C |- *; [exists b; tauto|]. replace (n <=? 0) with false by lia. eexists. split; [reflexivity|]. split; [rewrite repeat_length; lia|].
    intros j J _. apply nth_error_repeat. lia. }
  destruct B as (b & EB & LB & NB). unfold layer_buffer. rewrite EB.
  destruct (put_all r ix n lyr) with (b := b) (m := length ix) as (b' & E & L' & H1 & H2); auto.
  - apply sorted_nodup. exact SO. - intros k K. apply (read_storage r (r_ncells r)); auto. lia.
  - rewrite <- NC in E. exists b'. split; [|split; [split; [exact L'|]|split; [exact L'|]]].
    + etransitivity; [|exact E]. apply ofold_ext. intros k a K. rewrite PI. reflexivity.
    + intros i j I. pose proof (inside_number r i j I Cc) as P. fold n in P. destruct (GetValue_compact r ix i j lyr F I L) as [(m & _ & M & EM & ->)|(_ & NI & ->)].
      * destruct (H1 (Z.to_nat m) (i * r_cols r + j)) as (v & V1 & V2); [lia|exact EM|]. exists v. split; [exact V2|]. rewrite Z2Nat.id in V1 by lia. exact V1.
      * exists (r_nodata r). split; [|reflexivity]. rewrite H2; [apply NB; auto|]. intros k a _ EK X.
        pose proof (proj1 (Forall_forall _ _) RI a (nth_error_In _ _ EK)) as BA. cbv beta in BA. assert (a = i * r_cols r + j) by lia. subst a. apply NI. eapply nth_error_In. exact EK.
    + intros _ j J NJ. rewrite H2; [apply NB; auto|]. intros k a _ EK X.
      pose proof (proj1 (Forall_forall _ _) RI a (nth_error_In _ _ EK)) as BA. cbv beta in BA. assert (a = j) by lia. subst a. apply NJ. eapply nth_error_In. exact EK.
Qed.

Definition indices (r : raster num) : list Z := match r_posidx r with Some ix => ix | None => [] end.

Lemma layer_ok_any r lyr buf : holds_data r -> layer_ok r lyr -> clean r (direct_of r) (indices r) (r_rows r * r_cols r) buf ->
  exists b, layer_buffer r (direct_of r) (r_rows r * r_cols r) lyr buf = Ok (Some b) /\ layer_values r lyr b /\ clean r (direct_of r) (indices r) (r_rows r * r_cols r) (Some b).
Proof.
  intros [F|[ix F]] L C.
  - pose proof F as (_ & _ & _ & _ & _ & P1 & P2). unfold direct_of, indices in *. rewrite P1, P2 in *. apply layer_ok_full; assumption.
  - pose proof F as (_ & _ & _ & _ & _ & _ & _ & P1 & P2 & _). unfold direct_of, indices in *. rewrite P1, P2 in *. apply layer_ok_compact; assumption.
Qed.

Lemma full_values (r : raster num) : full_grid r -> r_is2d r = false -> exists b, r_data r = Some b /\ layer_values r 1 b.
Proof.
  intros F D. pose proof F as (R & C & NL & NC & ST & _). unfold storage in ST. rewrite D in ST. destruct ST as (L1 & d & ED & LD).
  exists d. split; [exact ED|]. split; [exact LD|]. intros i j I. pose proof (inside_number r i j I C) as P.
  destruct (nth_error d (Z.to_nat (i * r_cols r + j))) as [v|] eqn:E; [|apply nth_error_None in E; lia]. exists v. split; [reflexivity|].
  rewrite GetValue_full; [|assumption|assumption|unfold layer_ok; lia]. unfold read_cell. rewrite D, ED. cbn [deref obind]. apply aget_ok; [lia|exact E].
Qed.

Lemma layer_values_unique {T} (r : raster T) lyr vs ws : 0 < r_cols r -> layer_values r lyr vs -> layer_values r lyr ws -> vs = ws.
Proof.
  intros C [L1 H1] [L2 H2]. apply nth_error_ext. intros i. destruct (le_lt_dec (length vs) i) as [Q|Q].
  - rewrite (proj2 (nth_error_None vs i)), (proj2 (nth_error_None ws i)) by lia. reflexivity.
  - set (k := Z.of_nat i). assert (K : 0 <= k < r_rows r * r_cols r) by lia.
    assert (I : inside r (k / r_cols r) (k mod r_cols r)).
    { split; [split; [apply Z.div_pos; lia|apply Z.div_lt_upper_bound; nia]|apply Z.mod_pos_bound; lia]. }
    destruct (H1 _ _ I) as (v & V1 & V2). destruct (H2 _ _ I) as (w & W1 & W2).
    replace (k / r_cols r * r_cols r + k mod r_cols r) with k in V1, W1 by (rewrite Z.mul_comm; apply Z.div_mod; lia).
    replace (Z.to_nat k) with i in V1, W1 by lia. congruence.
Qed.

Section Output.
Variables (o : os) (g35 g37 : bool) (s : rdt) (ord : bytes -> list nat) (made moved : bytes -> bool) (h : smap f64) (opts : smap bytes) (r : raster num) (filename : bytes) (x y cs nd : f64).
Hypotheses (HD : holds_data r) (G : grid_size (r_rows r) (r_cols r)) (HS : header_shows h (r_cols r) (r_rows r) x y cs nd).
Let abs := GetAbsolutePath o filename.

Lemma sizes_read : (let* d := at_get h K_NROWS in f_int d) = Ok (r_rows r) /\ (let* d := at_get h K_NCOLS in f_int d) = Ok (r_cols r).
Proof.
  destruct HS as (H1 & H2 & _). destruct (size_facts (r_cols r) (r_rows r) G) as (IR & IC & _).
  unfold at_get, K_NROWS, K_NCOLS. rewrite H1, H2. cbn [obind]. split; apply f_int_of_int; assumption.
Qed.

Lemma nlyrs_pos : 1 <= r_nlyrs r.
Proof. destruct HD as [F|[ix F]]; destruct F as (_ & _ & N & _); exact N. Qed.

Lemma output_one : r_is2d r = false -> exists vs, layer_values r 1 vs /\
  OutputFileByGdal o g35 g37 s ord made moved h opts r filename =
  let* f := WriteSingleGeotiff g35 g37 s (ord abs) (made abs) (moved abs) h opts (Some vs) in
  match f with None => Ok (false, []) | Some t => Ok (true, [(abs, t)]) end.
Proof.
  intros D. destruct sizes_read as [E1 E2]. destruct (size_facts (r_cols r) (r_rows r) G) as (_ & _ & _ & _ & _ & IM).
  assert (B : exists vs, layer_values r 1 vs /\ (if direct_of r then Ok (r_data r) else let* n := imul (r_rows r) (r_cols r) in layer_buffer r false n 1 None) = Ok (Some vs)).
  { assert (LO : layer_ok r 1) by (pose proof nlyrs_pos; unfold layer_ok; lia).
    destruct (layer_ok_any r 1 None HD LO I) as (b & E & V & _). destruct (direct_of r) eqn:DR.
    - destruct HD as [F|[ix F]].
      + destruct (full_values r F D) as (d & E' & V'). exists d. rewrite E'. auto.
      + exfalso. destruct F as (_ & _ & _ & _ & _ & _ & _ & P1 & P2 & _). unfold direct_of in DR. rewrite P1, P2 in DR. discriminate.
    - exists b. rewrite IM. cbn [obind]. auto. }
  destruct B as (vs & V & E). exists vs. split; [exact V|]. unfold OutputFileByGdal. fold abs. rewrite D. fold (direct_of r).
  destruct (at_get h K_NROWS) as [d1| |]; cbn [obind] in E1 |- *; try discriminate. rewrite E1. cbn [obind].
  destruct (at_get h K_NCOLS) as [d2| |]; cbn [obind] in E2 |- *; try discriminate. rewrite E2. cbn [obind].
  match goal with |- context [if direct_of r then ?a else ?b] => change (if direct_of r then a else b) with (if direct_of r then Ok (r_data r) else let* n := imul (r_rows r) (r_cols r) in layer_buffer r false n 1 None) end.
  rewrite E. reflexivity.
Qed.

Definition layer_name (k : Z) : bytes := AppendCoreFileName o abs (itoa k) "_".

Lemma output_layers : r_is2d r = true -> GetPathFromFullName o abs <> [] ->
  (forall k vs, layer_ok r k -> layer_values r k vs -> exists f, WriteSingleGeotiff g35 g37 s (ord (layer_name k)) (made (layer_name k)) (moved (layer_name k)) h opts (Some vs) = Ok (Some f)) ->
  exists files, OutputFileByGdal o g35 g37 s ord made moved h opts r filename = Ok (true, files) /\ Z.of_nat (length files) = r_nlyrs r /\
    forall k, layer_ok r k -> exists vs f, layer_values r k vs /\ nth_error files (Z.to_nat (k - 1)) = Some (layer_name k, f) /\
      WriteSingleGeotiff g35 g37 s (ord (layer_name k)) (made (layer_name k)) (moved (layer_name k)) h opts (Some vs) = Ok (Some f).
Proof.
  intros D P W. destruct sizes_read as [E1 E2]. destruct (size_facts (r_cols r) (r_rows r) G) as (_ & _ & _ & _ & _ & IM).
  unfold OutputFileByGdal. fold abs. rewrite D. fold (direct_of r).
  destruct (at_get h K_NROWS) as [d1| |]; cbn [obind] in E1 |- *; try discriminate. rewrite E1. cbn [obind].
  destruct (at_get h K_NCOLS) as [d2| |]; cbn [obind] in E2 |- *; try discriminate. rewrite E2. cbn [obind].
  match goal with |- context [ofold ?F (zseq (r_nlyrs r)) _] => set (step := F) end.
  assert (L : forall m, (m <= Z.to_nat (r_nlyrs r))%nat -> exists files buf, ofold step (zseq (Z.of_nat m)) (true, [], None) = Ok (true, files, buf) /\
    length files = m /\ clean r (direct_of r) (indices r) (r_rows r * r_cols r) buf /\
    forall k, (k < m)%nat -> exists vs f, layer_values r (Z.of_nat k + 1) vs /\ nth_error files k = Some (layer_name (Z.of_nat k + 1), f) /\
      WriteSingleGeotiff g35 g37 s (ord (layer_name (Z.of_nat k + 1))) (made (layer_name (Z.of_nat k + 1))) (moved (layer_name (Z.of_nat k + 1))) h opts (Some vs) = Ok (Some f)).
  { induction m as [|m IH]; intros M.
    - exists [], None. split; [reflexivity|]. split; [reflexivity|]. split; [exact I|]. intros; lia.
    - destruct IH as (files & buf & E & LF & CB & H); [lia|]. replace (Z.of_nat (S m)) with (Z.of_nat m + 1) by lia. rewrite zseq_S, ofold_app, E by lia. cbn [obind ofold].
      assert (LO : layer_ok r (Z.of_nat m + 1)) by (unfold layer_ok; lia).
      destruct (layer_ok_any r (Z.of_nat m + 1) buf HD LO CB) as (b & EB & V & CB'). destruct (W _ _ LO V) as (f & EF).
      unfold step at 1. cbv beta iota zeta. cbn [negb]. rewrite IM. cbn [obind]. rewrite EB. cbn [obind]. fold (layer_name (Z.of_nat m + 1)). rewrite EF. cbn [obind].
      eexists _, _. split; [reflexivity|]. split; [rewrite app_length; cbn; lia|]. split; [exact CB'|]. intros k K. destruct (Nat.eq_dec k m) as [->|NE].
      + exists b, f. split; [exact V|]. split; [|exact EF]. rewrite nth_error_app2, LF, Nat.sub_diag by lia. reflexivity.
      + destruct (H k ltac:(lia)) as (vs & f' & V' & N' & W'). exists vs, f'. split; [exact V'|]. split; [|exact W']. rewrite nth_error_app1 by lia. exact N'. }
  pose proof nlyrs_pos as NP. destruct (L (Z.to_nat (r_nlyrs r)) ltac:(lia)) as (files & buf & E & LF & _ & H). rewrite Z2Nat.id in E by lia.
  exists files. split; [|split; [lia|]].
  - destruct (GetPathFromFullName o abs); [congruence|]. rewrite E. reflexivity.
  - intros k [K1 K2]. destruct (H (Z.to_nat (k - 1)) ltac:(lia)) as (vs & f & A). rewrite Z2Nat.id in A by lia. replace (k - 1 + 1) with k in A by lia. exists vs, f. exact A.
Qed.
End Output.
