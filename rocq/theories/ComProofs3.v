(** Proofs about combining subset files: data sets one after another, and files with
    the values of subsets. *)
From Coq Require Import ZArith QArith List Bool Lia Sorted ZifyBool ZifyNat Permutation.
From Verif Require Import Base ListLib RasterModel RasterSpec RasterProofs RasterProofs2 RasterProofs3 CoordModel SubsetModel SubsetSpec SubsetProofs SubsetProofs2 SubsetProofs3 SubsetProofs4 SubsetProofs5 SubsetProofs6 CopyProofs4 ComModel ComSpec ComProofs ComProofs2.
Import ListNotations.
Open Scope Z_scope.
Open Scope outcome_scope.

(** ** Subsets as built *)
Lemma built2 {T D} feq toint (r : raster T) ix groups ord (subs : list (Z * subset D)) : compact r ix -> zones_fit feq toint r ->
  BuildSubSet feq toint ord r [] groups = Ok (r, subs, true) ->
  ksorted subs /\ forall k, zfind subs k = opt (final r ix) (cells feq toint r groups k (all r)).
Proof.
  intros C F E. destruct (Build_compact (D := D) feq toint r ix groups C F ord) as (subs' & E' & KS & ZF).
  assert (subs' = subs) by congruence. subst. auto.
Qed.

Lemma built_shape {T D} feq toint (r : raster T) ix groups ord (subs : list (Z * subset D)) : compact r ix -> zones_fit feq toint r ->
  BuildSubSet feq toint ord r [] groups = Ok (r, subs, true) ->
  forall k s, In (k, s) subs -> let c := cells feq toint r groups k (all r) in
  s_global s = Some c /\ s_n s = Z.of_nat (length c) /\ c <> [] /\ s_data s = None.
Proof.
  intros C F E k s I. destruct (built2 feq toint r ix groups ord subs C F E) as [KS ZF]. apply (subs_shape feq toint r ix groups subs KS ZF) in I.
  destruct I as [-> N]. destruct (final_fields (D := D) r ix (cells feq toint r groups k (all r))) as (_ & NN & _ & DA & _ & G & _). auto.
Qed.

Lemma built_cells {T D} feq toint (r : raster T) ix groups ord (subs : list (Z * subset D)) : compact r ix -> zones_fit feq toint r ->
  BuildSubSet feq toint ord r [] groups = Ok (r, subs, true) ->
  forall k s, In (k, s) subs -> forall g, s_global s = Some g -> forall vi, In vi g -> exists row col, cell_at r vi row col.
Proof.
  intros C F E k s I g SG vi Hv. destruct (built_shape feq toint r ix groups ord subs C F E k s I) as (G & _). rewrite G in SG. injection SG as <-.
  pose proof (cells_range feq toint r groups k) as CR. rewrite Forall_forall in CR. exists (prow r ix vi), (pcol r ix vi). apply (cell_at_p r ix C); auto.
Qed.

(** ** What a file with the values of a subset holds *)
Lemma carried {T D} (feq : T -> T -> bool) toint (r : raster T) ix groups ord (subs : list (Z * subset D)) k s g val q :
  compact r ix -> zones_fit feq toint r -> BuildSubSet feq toint ord r [] groups = Ok (r, subs, true) ->
  In (k, s) subs -> s_global s = Some g -> carries feq r s val q ->
  file_values feq q = map val (filter (fun vi => negb (feq (val vi) (r_nodata q))) g).
Proof.
  intros C F E I SG (G & RW & CL & V). destruct (windows feq toint r ix groups ord subs C F E k s I) as (g' & lp & li & SO & BB & SL & LOC & FP & FI).
  destruct SO as (SG' & _ & _ & _ & LP & LI). assert (g' = g) by congruence. subst g'.
  destruct (file_read q G) as (d & D0 & LD & RD).
  assert (Px : exists x : T, True).
  { destruct G as [(R1 & C1 & _) _]. destruct (RD 0 ltac:(nia)) as (v & _). exists v. trivial. }
  destruct Px as [x _]. rewrite (file_values_map feq q d x G D0).
  assert (POS : forall vi, In vi g -> exists row col, cell_at r vi row col).
  { intros vi Hv. destruct (built_cells feq toint r ix groups ord subs C F E k s I g SG vi Hv) as (row & col & Hc). eauto. }
  set (wc := win_cols s) in *. set (wr := win_rows s) in *.
  assert (WC : 0 < wc) by (destruct G as [(R1 & C1 & _) _]; lia).
  assert (GV : forall row col, 0 <= row < wr -> 0 <= col < wc -> GetValue q row col 1 = read_cell q (row * wc + col) 1).
  { intros row col A B. rewrite GetValue_full; [rewrite CL; reflexivity|apply G|split; lia|]. destruct G as [(_ & _ & L1 & _) _]. split; lia. }
  (* every cell of the subset: its value in the file *)
  assert (CELL : forall i vi, nth_error g i = Some vi -> exists j, nth_error li i = Some j /\ 0 <= j < wr * wc /\ nth (Z.to_nat j) d x = val vi /\ read_cell q j 1 = Ok (val vi)).
  { intros i vi Hi. pose proof (nth_error_In _ _ Hi) as Hv. destruct (POS vi Hv) as (row & col & Hc). destruct (LOC i vi row col Hi Hc) as [LP1 LI1].
    destruct (proj1 BB vi row col Hv Hc) as [B1 B2]. exists ((row - s_srow s) * wc + (col - s_scol s)).
    assert (W1 : 0 <= row - s_srow s < wr) by (unfold wr, win_rows; lia). assert (W2 : 0 <= col - s_scol s < wc) by (unfold wc, win_cols; lia).
    split; [exact LI1|]. split; [nia|].
    destruct (V (row - s_srow s) (col - s_scol s) W1 W2) as (v & GE & VV & _).
    assert (v = val vi).
    { apply VV; [exists g; auto|]. replace (row - s_srow s + s_srow s) with row by lia. replace (col - s_scol s + s_scol s) with col by lia. exact Hc. }
    subst v. rewrite GV in GE by lia. split; [|exact GE].
    destruct (RD ((row - s_srow s) * wc + (col - s_scol s)) ltac:(nia)) as (v & NE & RC). rewrite RC in GE. injection GE as ->. apply nth_error_nth. exact NE. }
  (* elsewhere: NoData *)
  assert (OUT : forall j, 0 <= j < wr * wc -> ~ In j li -> validb feq q j = false).
  { intros j B N. assert (W1 : 0 <= j / wc < wr) by (split; [apply Z.div_pos; lia|apply Z.div_lt_upper_bound; nia]). pose proof (Z.mod_pos_bound j wc WC) as W2.
    pose proof (Z.div_mod j wc ltac:(lia)) as DM. destruct (V (j / wc) (j mod wc) W1 W2) as (v & GE & _ & VN). rewrite GV in GE by lia.
    replace (j / wc * wc + j mod wc) with j in GE by lia. unfold validb. rewrite GE. rewrite VN; [reflexivity|].
    intros vi (g' & SG2 & Hv) Hc. assert (g' = g) by congruence. subst g'. apply N. apply In_nth_error in Hv. destruct Hv as [i Hi].
    destruct (LOC i vi _ _ Hi Hc) as [_ LI1]. apply nth_error_In in LI1. change (s_ecol s - s_scol s + 1) with wc in LI1.
    replace ((j / wc + s_srow s - s_srow s) * wc + (j mod wc + s_scol s - s_scol s)) with j in LI1 by lia. exact LI1. }
  assert (VI : valid_idx feq q = filter (validb feq q) li).
  { apply sorted_same; [apply StronglySorted_filter, StronglySorted_zseq|apply StronglySorted_filter, SL|]. intros j. unfold valid_idx. rewrite !filter_In, zseq_In.
    rewrite RW, CL. fold wr wc. split; intros [A B]; (split; [|exact B]).
    - destruct (in_dec Z.eq_dec j li) as [|N]; [assumption|]. rewrite OUT in B; [discriminate|exact A|exact N].
    - rewrite Forall_forall in FI. specialize (FI j A). exact FI. }
  rewrite VI. clear VI OUT RD GV V BB LOC FP FI SL POS.
  assert (PR : forall (g0 li0 : list Z), length li0 = length g0 ->
     (forall i vi, nth_error g0 i = Some vi -> exists j, nth_error li0 i = Some j /\ nth (Z.to_nat j) d x = val vi /\ read_cell q j 1 = Ok (val vi)) ->
     map (fun j => nth (Z.to_nat j) d x) (filter (validb feq q) li0) = map val (filter (fun vi => negb (feq (val vi) (r_nodata q))) g0)).
  { clear. induction g0 as [|vi g0 IH]; intros [|j li0] L H; try discriminate; [reflexivity|]. cbn [filter].
    destruct (H 0%nat vi eq_refl) as (j' & [= <-] & N & R). unfold validb at 1. rewrite R.
    assert (IH' := IH li0 ltac:(cbn in L; lia) (fun i vi Hi => H (S i) vi Hi)).
    destruct (feq (val vi) (r_nodata q)); cbn [negb]; [exact IH'|]. cbn [map]. rewrite N, IH'. reflexivity. }
  apply PR; [exact LI|]. intros i vi Hi. destruct (CELL i vi Hi) as (j & A & _ & B & B'). eauto.
Qed.

(** ** One data set after any others *)
Section History.
Context {T D : Type}.
Variable feq : T -> T -> bool.
Variable feqD : D -> D -> bool.
Variable toint : T -> option Z.
Variable toD : T -> D.
Variable ofD : D -> outcome T.
Variable dNODATA : D.
Variable write_ok : list (request T) -> request T -> bool.
Variable r : raster T.
Variable ix : list Z.
Variable groups : list (Z * Z).
Variable ord : list nat.
Variable subs : list (Z * subset D).
Hypothesis C : compact r ix.
Hypothesis F : zones_fit feq toint r.
Hypothesis E : BuildSubSet feq toint ord r [] groups = Ok (r, subs, true).
Hypothesis RT : forall v, ofD (toD v) = Ok v.
Hypothesis DN : feqD dNODATA dNODATA = true.

Let KS := proj1 (built2 feq toint r ix groups ord subs C F E).
Let ZF := proj2 (built2 feq toint r ix groups ord subs C F E).

Lemma good_start : good subs (fun ks => snd ks).
Proof using C F E.
  clear feqD toD ofD dNODATA write_ok DN RT. split; [intros ks; split; reflexivity|]. intros [k s] I. destruct (built_shape feq toint r ix groups ord subs C F E k s I) as (_ & N & NE & DA).
  cbn [snd]. split.
  - rewrite N. destruct (cells feq toint r groups k (all r)); [congruence|cbn [length]; lia].
  - rewrite DA. trivial.
Qed.

Lemma refill_start : refill (fun ks => snd ks) subs = subs.
Proof using Type. unfold refill. rewrite <- (map_id subs) at 2. apply map_ext. intros [k s]. reflexivity. Qed.

Definition any_fit (files : list (infile T)) : bool := existsb (fun ks : Z * subset D => match fitting feq (fst ks) (s_n (snd ks)) files with Some _ => true | None => false end) subs.

Lemma item_run f dv dfv files : good subs f -> usable_files feq (map fst subs) files -> ofD dv = Ok dfv ->
  exists log flag, combine_item feq feqD toint toD ofD dNODATA write_ok r (refill f subs) dv files = Ok (refill (item_fill feq toD files f) subs, (log, flag)) /\
  (any_fit files = false -> log = [] /\ flag = false) /\
  (any_fit files = true -> exists q, log = [q] /\ flag = write_ok [] q /\ q_lyr q = 0 /\ q_lyrs q = 1 /\ q_geo q = geo_of r /\
     Z.of_nat (length (q_data q)) = r_rows r * r_cols r /\
     (forall k s g i vi row col, In (k, s) subs -> s_global s = Some g -> nth_error g i = Some vi -> cell_at r vi row col ->
        nth_error (q_data q) (Z.to_nat (row * r_cols r + col)) =
        match fitting feq k (s_n s) files with
        | Some vs => nth_error vs i
        | None => Some (if feqD (toD (r_nodata r)) dv then r_nodata r else dfv)
        end) /\
     (forall row col, inside r row col -> (forall k s g vi, In (k, s) subs -> s_global s = Some g -> In vi g -> ~ cell_at r vi row col) ->
        nth_error (q_data q) (Z.to_nat (row * r_cols r + col)) = Some (r_nodata r))).
Proof using C F E RT DN KS ZF.
  intros G U DV. unfold combine_item. rewrite unusable_refill, (put_files feq toD dNODATA subs KS files (off f) (good_off subs f G) U). cbn [obind].
  change (after feq toD files (off f)) with (item_fill feq toD files f).
  pose proof C as (CR & CC & _ & _ & _ & CS & _). unfold OutputSubsetToFile. rewrite (storage_valid r _ CS). cbn [negb].
  destruct (any_fit files) eqn:A.
  - apply existsb_exists in A. destruct A as (ks & I & A). destruct (fitting feq (fst ks) (s_n (snd ks)) files) as [vs|] eqn:FT; [|discriminate].
    destruct (item_some feq toint toD dNODATA r ix groups subs KS C ZF feqD ofD dv dfv RT DN DV files f G) as (d & P & L & V & O); [eauto|].
    destruct (refill (item_fill feq toD files f) subs) as [|x y] eqn:EX; [destruct subs; [destruct I|discriminate]|]. rewrite <- EX in *. clear x y EX.
    rewrite P. cbn [obind]. change (1 =? 0) with false. cbv iota. rewrite Z.quot_1_r. unfold OutputFullsize. change (1 <? 1) with false. change (1 =? 1) with true. cbv iota. cbn [app obind].
    eexists _, _. split; [reflexivity|]. split; [discriminate|]. intros _. eexists. split; [reflexivity|]. split; [reflexivity|]. cbn [q_lyr q_lyrs q_geo q_data].
    split; [reflexivity|]. split; [reflexivity|]. split; [reflexivity|]. split; [exact L|]. split.
    + intros k s g i vi row col Ik SG Hi Hc. destruct (built_shape feq toint r ix groups ord subs C F E k s Ik) as (SG' & N & NE & _). rewrite SG' in SG. injection SG as <-.
      pose proof (nth_error_In _ _ Hi) as Hv. rewrite (V k vi row col); [|apply (cells_In feq toint r groups k vi); exact Hv|exact Hc]. rewrite N.
      destruct (fitting feq k (Z.of_nat (length (cells feq toint r groups k (all r)))) files) as [ws|] eqn:FW; [|reflexivity].
      unfold placed_value. rewrite FW. pose proof (fitting_length _ _ _ _ _ FW) as LW.
      destruct (nth_error ws i) as [w|] eqn:EW.
      2:{ apply nth_error_None in EW. assert (i < length (cells feq toint r groups k (all r)))%nat by (apply nth_error_Some; congruence). lia. }
      rewrite (zfind_combine w _ ws i vi); [reflexivity|apply sorted_NoDup, cells_sorted|exact Hi|exact EW].
    + intros row col Hin NO. apply O; [exact Hin|]. intros k vi IG. pose proof (proj2 (cells_In feq toint r groups k vi) IG) as Hv.
      apply (NO k (final r ix (cells feq toint r groups k (all r))) (cells feq toint r groups k (all r)) vi).
      * apply (subs_shape feq toint r ix groups subs KS ZF). split; [reflexivity|]. intros X. rewrite X in Hv. destruct Hv.
      * destruct (final_fields (D := D) r ix (cells feq toint r groups k (all r))) as (_ & _ & _ & _ & _ & SG & _). exact SG.
      * exact Hv.
  - assert (NO : forall ks, In ks subs -> fitting feq (fst ks) (s_n (snd ks)) files = None).
    { intros ks I. destruct (fitting feq (fst ks) (s_n (snd ks)) files) eqn:FT; [|reflexivity]. exfalso. assert (any_fit files = true); [|congruence].
      apply existsb_exists. exists ks. split; [exact I|]. rewrite FT. reflexivity. }
    exists [], false. split; [|split; [auto|discriminate]].
    rewrite (item_none feq toint toD dNODATA r subs feqD ofD dv files f NO). cbn [obind].
    destruct (refill (item_fill feq toD files f) subs); reflexivity.
Qed.

Definition fine (it : D * list (infile T)) : Prop := (exists v, ofD (fst it) = Ok v) /\ usable_files feq (map fst subs) (snd it).

Lemma items_run : forall items f, good subs f -> Forall fine items ->
  exists f', good subs f' /\ combine_items feq feqD toint toD ofD dNODATA write_ok r (refill f subs) items = Ok (refill f' subs).
Proof using C F E RT DN KS ZF.
  induction items as [|[dv files] items IH]; intros f G H; [exists f; split; [exact G|reflexivity]|].
  inversion H as [|? ? [[v DV] U] H']; subst. cbn [fst snd] in *. destruct (item_run f dv v files G U DV) as (log & flag & R & _).
  unfold combine_items in *. cbn [ofold fst snd]. rewrite R. cbn [obind fst]. apply IH; [|exact H']. apply good_after, good_off, G.
Qed.
End History.
