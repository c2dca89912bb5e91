(** Proofs about subsets: what BuildSubSet returns, reclassified combination,
    output of the single windows. *)
From Coq Require Import ZArith QArith List Bool Lia Sorted ZifyBool ZifyNat Permutation.
From Verif Require Import Base ListLib RasterModel RasterSpec RasterProofs RasterProofs2 RasterProofs3 CoordModel
  SubsetModel SubsetSpec SubsetProofs SubsetProofs2 SubsetProofs3 SubsetProofs4.
Import ListNotations.
Open Scope Z_scope.
Open Scope outcome_scope.

(** * Building *)
Section Build.
Context {T D : Type}.
Variable feq : T -> T -> bool.
Variable toint : T -> option Z.

Lemma partition (r : raster T) ix groups ord : compact r ix -> zones_fit feq toint r -> exists subs : list (Z * subset D),
  BuildSubSet feq toint ord r [] groups = Ok (r, subs, true) /\
  StronglySorted Z.lt (map fst subs) /\
  (forall k s, In (k, s) subs -> exists g, s_global s = Some g /\ s_n s = Z.of_nat (length g) /\ g <> [] /\
     StronglySorted Z.lt g /\ forall vi, In vi g <-> in_group feq toint r groups k vi) /\
  (forall vi v, 0 <= vi < r_ncells r -> read_cell r vi 1 = Ok v -> feq v (r_nodata r) = false ->
     exists k s, In (k, s) subs /\ in_group feq toint r groups k vi /\
       forall k' s', In (k', s') subs -> in_group feq toint r groups k' vi -> k' = k /\ s' = s).
Proof.
  intros C FIT. destruct (Build_compact (D := D) feq toint r ix groups C FIT ord) as (subs & E & KS & ZF).
  exists subs. split; [exact E|]. split; [exact KS|]. split.
  - intros k s H. apply (subs_shape feq toint r ix groups subs KS ZF) in H. destruct H as [-> N].
    destruct (final_fields (D := D) r ix (cells feq toint r groups k (all r))) as (_ & S & _ & _ & _ & G & _). cbn zeta in *.
    exists (cells feq toint r groups k (all r)). split; [exact G|]. split; [exact S|]. split; [exact N|].
    split; [apply cells_sorted|apply cells_In].
  - intros vi v B R F. destruct (toint v) as [z|] eqn:Z; [|exfalso; exact (FIT vi v B R F Z)].
    assert (I : in_group feq toint r groups (group_of groups z) vi).
    { split; [exact B|]. exists v, z. repeat split; auto. unfold group_of. destruct (zfind groups z); auto. }
    exists (group_of groups z), (final r ix (cells feq toint r groups (group_of groups z) (all r))).
    split; [|split; [exact I|]].
    + apply (subs_shape feq toint r ix groups subs KS ZF). split; [reflexivity|]. intros X. apply cells_In in I. rewrite X in I. destruct I.
    + intros k' s' H I'. pose proof (in_group_fun _ _ _ _ _ _ _ I' I). subst. split; [reflexivity|].
      apply (subs_shape feq toint r ix groups subs KS ZF) in H. apply H.
Qed.

Lemma build_full (r : raster T) groups ord r' (subs : list (Z * subset D)) : full_grid r -> SetCalcPositions feq ord r = Ok (r', true) ->
  0 < r_ncells r' -> (exists ix, compact r' ix) -> BuildSubSet feq toint ord r subs groups = BuildSubSet feq toint ord r' subs groups.
Proof.
  intros F S N (ix & C). pose proof F as (_ & _ & _ & _ & FS & P & _). unfold BuildSubSet.
  rewrite (storage_valid r _ FS). pose proof C as (_ & _ & _ & _ & _ & CS & _ & CP & CQ & _).
  rewrite (storage_valid r' _ CS), P, S, CP, CQ. cbn [negb isnull orb obind fst snd]. rewrite CP. reflexivity.
Qed.

Lemma build_empty (r : raster T) groups ord r' : full_grid r -> SetCalcPositions feq ord r = Ok (r', true) ->
  r_ncells r' = 0 -> BuildSubSet feq toint ord r [] groups = Ok (r', ([] : list (Z * subset D)), true).
Proof.
  intros F S N. pose proof F as (_ & _ & _ & _ & FS & P & _). unfold BuildSubSet.
  rewrite (storage_valid r _ FS), P, S. cbn [negb isnull orb obind fst snd]. rewrite N, zseq_0 by lia. reflexivity.
Qed.

Lemma build_again (r : raster T) ix groups ord x (subs : list (Z * subset D)) : compact r ix ->
  BuildSubSet feq toint ord r (x :: subs) groups = Ok (r, x :: subs, true).
Proof.
  intros C. pose proof C as (_ & _ & _ & _ & _ & CS & _ & CP & CQ & _). unfold BuildSubSet.
  rewrite (storage_valid r _ CS), CP, CQ. reflexivity.
Qed.

Lemma windows (r : raster T) ix groups ord (subs : list (Z * subset D)) : compact r ix -> zones_fit feq toint r ->
  BuildSubSet feq toint ord r [] groups = Ok (r, subs, true) ->
  forall k s, In (k, s) subs -> exists g lp li, subset_of s g lp li /\ bounding_box r s g /\
    StronglySorted Z.lt li /\
    (forall i vi row col, nth_error g i = Some vi -> cell_at r vi row col ->
       nth_error lp i = Some (row - s_srow s, col - s_scol s) /\
       nth_error li i = Some ((row - s_srow s) * (s_ecol s - s_scol s + 1) + (col - s_scol s))) /\
    Forall (fun p => 0 <= fst p <= s_erow s - s_srow s /\ 0 <= snd p <= s_ecol s - s_scol s) lp /\
    Forall (fun j => 0 <= j < (s_erow s - s_srow s + 1) * (s_ecol s - s_scol s + 1)) li.
Proof.
  intros C FIT E k s H. destruct (Build_compact (D := D) feq toint r ix groups C FIT ord) as (subs' & E' & KS & ZF).
  assert (subs' = subs) by congruence. subst subs'. apply (subs_shape feq toint r ix groups subs KS ZF) in H. destruct H as [-> N].
  set (c := cells feq toint r groups k (all r)) in *.
  assert (FR : forall vi, In vi c -> 0 <= vi < r_ncells r).
  { intros vi Hv. pose proof (cells_range feq toint r groups k) as F. rewrite Forall_forall in F. apply F, Hv. }
  destruct (final_fields (D := D) r ix c) as (_ & S & _ & _ & _ & G & W1 & W2 & W3 & W4 & L1 & L2). cbn zeta in *.
  destruct (wsub_box (D := D) r ix c N) as (B & (v1 & I1 & E1) & (v2 & I2 & E2) & (v3 & I3 & E3) & (v4 & I4 & E4)). cbn zeta in *.
  exists c, (lp_of r ix (wsub (D := D) r ix c) c), (li_of r ix (wsub (D := D) r ix c) c).
  split; [|split; [|split; [|split; [|split]]]].
  - unfold subset_of. rewrite G, L1, L2, S. unfold lp_of, li_of. rewrite !map_length. auto 10.
  - unfold bounding_box. rewrite W1, W2, W3, W4. split; [|split; [|split; [|split]]].
    + intros vi row col Hv Hc. apply (cell_at_p r ix C) in Hc; [|apply FR, Hv]. destruct Hc as [-> ->]. apply B, Hv.
    + exists v1, (pcol r ix v1). split; [exact I1|]. apply (cell_at_p r ix C); [apply FR, I1|]. auto.
    + exists v2, (pcol r ix v2). split; [exact I2|]. apply (cell_at_p r ix C); [apply FR, I2|]. auto.
    + exists v3, (prow r ix v3). split; [exact I3|]. apply (cell_at_p r ix C); [apply FR, I3|]. auto.
    + exists v4, (prow r ix v4). split; [exact I4|]. apply (cell_at_p r ix C); [apply FR, I4|]. auto.
  - apply (li_sorted feq toint r ix groups C k). intros vi Hv. apply B, Hv.
  - intros i vi row col Hi Hc. assert (Hv : In vi c) by (eapply nth_error_In; exact Hi).
    apply (cell_at_p r ix C) in Hc; [|apply FR, Hv]. destruct Hc as [-> ->]. rewrite W1, W3, W4.
    unfold lp_of, li_of. rewrite !nth_error_map, Hi. auto.
  - apply Forall_forall. intros p Hp. unfold lp_of in Hp. apply in_map_iff in Hp. destruct Hp as (vi & <- & Hv).
    destruct (B vi Hv). rewrite W1, W2, W3, W4. cbn [fst snd]. lia.
  - apply Forall_forall. intros p Hp. unfold li_of in Hp. apply in_map_iff in Hp. destruct Hp as (vi & <- & Hv).
    destruct (B vi Hv) as [Ba Bb]. rewrite W1, W2, W3, W4.
    set (a := prow r ix vi) in *. set (b := pcol r ix vi) in *. nia.
Qed.
End Build.

(** * Windows and geometry *)
Lemma header_coord {D} (s : subset D) g lr lc :
  let c := GetCoordinateByRowCol (GetHeader s g) lr lc in
  let c' := GetCoordinateByRowCol g (lr + s_srow s) (lc + s_scol s) in
  (fst c == fst c' /\ snd c == snd c')%Q.
Proof.
  cbn [GetCoordinateByRowCol GetHeader g_xll g_yll g_cs g_rows fst snd]. split.
  - rewrite inject_Z_plus. ring.
  - replace (g_rows g - (lr + s_srow s) - 1) with (g_rows g - s_erow s - 1 + (s_erow s - s_srow s + 1 - lr - 1)) by lia.
    rewrite (inject_Z_plus (g_rows g - s_erow s - 1)). ring.
Qed.

Section Use.
Context {T D : Type}.
Variable feq : T -> T -> bool.
Variable toint : T -> option Z.
Variable r : raster T.
Variable ix : list Z.
Variable groups : list (Z * Z).
Hypothesis C : compact r ix.
Hypothesis FIT : zones_fit feq toint r.
Variable subs : list (Z * subset D).
Hypothesis KS : ksorted subs.

Notation cells := (cells feq toint r groups).
Notation all := (all r).
Notation final := (final (D := D) r ix).
Hypothesis ZF : forall k, zfind subs k = opt final (cells k all).
Notation shape := (subs_shape feq toint r ix groups subs KS ZF).

(** * Original values cannot be combined *)
Section NoOrigin.
Variable feqD : D -> D -> bool.
Variable toD : T -> D.
Variable ofD : D -> outcome T.
Variable dNODATA : D.
Variable f : Z * subset D -> subset D.
Hypothesis Hf : forall ks, s_global (f ks) = s_global (snd ks) /\ s_n (f ks) = s_n (snd ks).
Notation subs' := (map (fun ks => (fst ks, f ks)) subs).

Lemma try_none {A B} (m : B -> outcome (option (Z * A))) l st : (exists b l', l = b :: l') ->
  (forall b, In b l -> m b = Ok None) -> ofold (fun st b => try_write st (m b)) l st = Ok None.
Proof.
  intros (b & l' & ->) H. cbn [ofold]. destruct st as [a|]; cbn [try_write].
  - rewrite (H b (or_introl eq_refl)). cbn [obind]. apply try_writes_none.
  - cbn [obind]. apply try_writes_none.
Qed.

Lemma prepare_origin default dv v : (exists k s, In (k, s) subs' /\ s_usable s = true) ->
  ofD (if feqD default dNODATA then dv else default) = Ok v ->
  PrepareCombSubsetData feqD toint toD ofD dNODATA r dv subs' true true [] default = Ok None.
Proof.
  intros (k & s & Hin & Us) DV. pose proof C as (CR & CC & CL & CN & CI & CS & CK & CP & CQ & CO & CF).
  unfold PrepareCombSubsetData. cbn [recls_layers]. destruct subs' as [|x y] eqn:Es; [reflexivity|]. rewrite <- Es in *. clear x y Es.
  destruct (subset_layers true subs' (-1)) as [n|]; [|reflexivity]. replace (0 <? -1) with false by lia.
  replace (r_nlyrs r <? 0) with false by lia. set (def := if feqD default dNODATA then dv else default) in *.
  set (data := match init1d None _ _ with Some a => a | None => [] end).
  assert (LD : Z.of_nat (length data) = r_rows r * r_cols r * r_nlyrs r).
  { unfold data, init1d. replace (r_rows r * r_cols r * r_nlyrs r <=? 0) with false by nia. rewrite repeat_length. nia. }
  enough (X : ofold (comb_subset feqD toint toD ofD r (r_nlyrs r) true true [] def) subs' (Some data) = Ok None) by (rewrite X; reflexivity).
  assert (G : forall l st, incl l subs' -> (forall a, st = Some a -> Z.of_nat (length a) = r_rows r * r_cols r * r_nlyrs r) ->
     (st = None \/ In (k, s) l) -> ofold (comb_subset feqD toint toD ofD r (r_nlyrs r) true true [] def) l st = Ok None).
  2:{ apply G; [apply incl_refl| |right; exact Hin]. intros a E. injection E as <-. exact LD. }
  induction l as [|[k' s'] l IH]; intros st I La Hst; cbn [ofold].
  { destruct Hst as [->|[]]. reflexivity. }
  assert (Hx : In (k', s') subs') by (apply I; left; reflexivity).
  assert (I' : incl l subs') by (intros z Hz; apply I; right; exact Hz).
  pose proof Hx as Hx0. apply in_map_iff in Hx. destruct Hx as ([k0 s0] & E & Hs). cbn [fst] in E. injection E as -> <-.
  pose proof (proj1 (shape _ _) Hs) as [Sh Ne]. destruct (Hf (k', s0)) as [Gl Nn]. cbn [snd] in Gl, Nn.
  destruct (final_fields (D := D) r ix (cells k' all)) as (_ & N' & _ & _ & _ & G' & _). cbn zeta in *.
  subst s0. rewrite G' in Gl. rewrite N' in Nn.
  set (s' := f (k', final (cells k' all))) in *. set (c := cells k' all) in *.
  assert (FR : Forall (fun vi => 0 <= vi < r_ncells r) c) by apply cells_range. rewrite Forall_forall in FR.
  assert (LC : (0 < length c)%nat) by (destruct c; [congruence|cbn; lia]).
  assert (AT : forall i, 0 <= i < Z.of_nat (length c) -> aget c i = Ok (nth (Z.to_nat i) c 0) /\ 0 <= nth (Z.to_nat i) c 0 < r_ncells r).
  { intros i Bi. split; [apply aget_ok; [lia|apply nth_error_nth'; lia]|]. apply FR, nth_In. lia. }
  destruct (s_usable s') eqn:U.
  - (* usable: the "will not happen" branch *)
    unfold comb_subset at 1. cbn [fst snd]. rewrite U. cbn [negb andb].
    rewrite (try_none _ (cell_layers (s_n s') (r_nlyrs r)) st).
    + cbn [obind]. apply IH; [exact I'|discriminate|left; reflexivity].
    + assert (In (0, 0) (cell_layers (s_n s') (r_nlyrs r))) as H by (apply cell_layers_In; cbn [fst snd]; lia).
      destruct (cell_layers (s_n s') (r_nlyrs r)) as [|b l']; [destruct H|eauto].
    + intros vl Hv. apply cell_layers_In in Hv. destruct Hv as [Hv Hl]. rewrite Nn in Hv. rewrite Gl. cbn [deref obind].
      destruct (AT _ Hv) as [A B]. rewrite A. cbn [obind]. rewrite CP. cbn [deref obind].
      destruct (ix_at r ix C _ B) as [IX _]. rewrite IX. cbn [obind comb_value negb andb]. reflexivity.
  - (* not usable: skipped, or filled with the default *)
    assert (exists st', comb_subset feqD toint toD ofD r (r_nlyrs r) true true [] def st (k', s') = Ok st' /\
        (forall a, st' = Some a -> Z.of_nat (length a) = r_rows r * r_cols r * r_nlyrs r) /\ (st = None -> st' = None)) as (st' & E & La' & Hn).
    { unfold comb_subset. cbn [fst snd]. rewrite U. cbn [negb andb]. destruct (feqD (toD (r_nodata r)) def) eqn:Q; cbn [negb andb].
      - eexists; split; [reflexivity|]. auto.
      - destruct st as [a|]; [|exists None; rewrite try_writes_none; split; [reflexivity|split; [discriminate|auto]]].
        rewrite (try_writes _ (fun vl => (nth (Z.to_nat (nth (Z.to_nat (fst vl)) c 0)) ix 0 * r_nlyrs r + snd vl, v))).
        + eexists; split; [reflexivity|]. split; [|discriminate]. intros a' E. injection E as <-. rewrite puts_length. apply La. reflexivity.
        + intros vl Hv. apply cell_layers_In in Hv. destruct Hv as [Hv Hl]. rewrite Nn in Hv. rewrite Gl. cbn [deref obind].
          destruct (AT _ Hv) as [A B]. rewrite A. cbn [obind]. rewrite CP. cbn [deref obind].
          destruct (ix_at r ix C _ B) as [IX IB]. rewrite IX. cbn [obind comb_value negb andb]. rewrite DV. cbn [obind].
          split; [reflexivity|]. cbn [fst]. rewrite (La a eq_refl). nia. }
    rewrite E. cbn [obind]. apply IH; [exact I'|exact La'|].
    destruct Hst as [->|[Hk|Hk]]; [left; auto| |right; exact Hk].
    exfalso. assert (s' = s) by congruence. congruence.
Qed.
End NoOrigin.
End Use.
