(** Statistics: what is delivered, and when it is out of date. *)
From Coq Require Import ZArith QArith List Bool Lia String.
From Verif Require Import Base StrModel MapModel MapProofs RasterModel RasterSpec ListLib RasterProofs
  SubsetModel MathModel MathSpec MathProofs CopyModel CopySpec CopyProofs CopyProofs2.
Import List ListNotations.
Open Scope Z_scope.
Open Scope outcome_scope.

Lemma F2_length {A B} (R : A -> B -> Prop) l l' : Forall2 R l l' -> length l = length l'.
Proof. induction 1; cbn; congruence. Qed.

Lemma F2_nth {A B} (R : A -> B -> Prop) l l' : Forall2 R l l' ->
  forall i a b, nth_error l i = Some a -> nth_error l' i = Some b -> R a b.
Proof.
  induction 1 as [|x y l l' H F IH]; intros i a b; destruct i; cbn; try discriminate.
  - intros E E'. injection E as <-. injection E' as <-. exact H.
  - apply IH.
Qed.

Lemma figure_index st i k : nth_error derived_names i = Some k -> figure st k = nth_error (six st) i.
Proof.
  do 6 (destruct i as [|i]; [cbn [derived_names map nth_error]; intros H; injection H as <-; reflexivity|]).
  cbn. destruct i; discriminate.
Qed.

Lemma figure_name st k : In k stats_names -> exists v, figure st k = Some v.
Proof.
  intros I. destruct (name_index k I) as (i & Hi). rewrite (figure_index st i k Hi).
  destruct (nth_error (six st) i) eqn:E; [eauto|]. apply nth_error_None in E.
  assert (i < length derived_names)%nat by (apply nth_error_Some; congruence). cbn in *. lia.
Qed.

Section Q.
Variable feq : Q -> Q -> bool.
Variable sqrt : Q -> Q.
Variable feqD : option Q -> option Q -> bool.
Variable dNODATA : option Q.
Variable t1 : team.
Variable t2 : Z -> team.
Local Notation obj := (robj Q (option Q)).
Local Notation Calc := (CalculateStatistics dNODATA (basic1Q feq sqrt t1) (basic2Q feq sqrt t2)).
Local Notation Get := (GetStatistics feqD dNODATA (basic1Q feq sqrt t1) (basic2Q feq sqrt t2)).
Local Notation Update := (UpdateStatistics dNODATA (basic1Q feq sqrt t1) (basic2Q feq sqrt t2)).
Implicit Types (o : obj).

(** The statistics kept are those described by [st lyr]. *)
Definition keeps o (st : Z -> stats) : Prop :=
  o_scalc o = true /\ named (o_stats o) /\
  forall k, In k stats_names ->
    if r_is2d (o_r o)
    then exists l, lookup (o_stats2 o) k = Some (Some l) /\ Z.of_nat (length l) = r_nlyrs (o_r o) /\
         forall lyr, layer_ok (o_r o) lyr -> exists v, aget l (lyr - 1) = Ok v /\ figure (st lyr) k = Some v
    else forall lyr, layer_ok (o_r o) lyr -> lookup (o_stats o) k = figure (st lyr) k.

Lemma Get_keeps o st name lyr v : keeps o st -> ValidateRasterData (o_r o) = true -> layer_ok (o_r o) lyr ->
  figure (st lyr) (GetUpper name) = Some v -> In (GetUpper name) stats_names -> Get o name lyr = Ok (o, v).
Proof.
  intros (Hs & Hn & H) Hv Hl Hf I. unfold GetStatistics. rewrite Hv. rewrite (proj2 (vl_true _ _) Hl). cbn [negb orb].
  specialize (H _ I). unfold ValidateRasterData in Hv. destruct (r_is2d (o_r o)) eqn:E2; cbn [andb negb orb] in *.
  - rewrite Hv. destruct H as (l & Ll & _ & Hx). rewrite Ll. cbn [isnull obind]. unfold at_get. rewrite Ll. cbn [obind deref].
    destruct (Hx lyr Hl) as (w & -> & Hw). cbn [obind]. congruence.
  - rewrite (H lyr Hl), Hf. assert (E : Calc o = Ok o) by (unfold CalculateStatistics; now rewrite Hs). rewrite E.
    destruct (feqD v dNODATA || negb (o_scalc o)); cbn [obind]; unfold at_get; rewrite (H lyr Hl), Hf; reflexivity.
Qed.

Lemma layer_values_1d (r : raster Q) d lyr vals : r_is2d r = false -> r_nlyrs r = 1 -> r_data r = Some d -> Z.of_nat (length d) = r_ncells r ->
  layer_ok r lyr -> layer_values r lyr vals -> vals = d.
Proof.
  intros E El Ed Ln L H. unfold layer_values in H. apply nth_error_ext. intros i.
  assert (LV : length vals = length d) by (apply F2_length in H; rewrite zseq_length in H; lia).
  destruct (nth_error d i) as [x|] eqn:Ex.
  - assert (i < length d)%nat by (apply nth_error_Some; congruence).
    assert (Hz : nth_error (zseq (r_ncells r)) i = Some (Z.of_nat i)) by (apply zseq_nth_nat; lia).
    destruct (nth_error vals i) as [y|] eqn:Ey; [|apply nth_error_None in Ey; lia].
    assert (G : GetValueByIndex r (Z.of_nat i) lyr = Ok y).
    { exact (F2_nth _ _ _ H i _ _ Hz Ey). }
    unfold GetValueByIndex in G. assert (V : ValidateRasterData r = true) by (unfold ValidateRasterData; rewrite E, Ed; reflexivity).
    rewrite V, (proj2 (vl_true _ _) L) in G. rewrite (proj2 (vi_true _ _)) in G by lia. cbn [negb orb] in G.
    unfold read_cell in G. rewrite E, Ed in G. cbn [deref obind] in G. apply aget_inv in G. destruct G as [_ G].
    rewrite Nat2Z.id in G. congruence.
  - apply nth_error_None in Ex. apply nth_error_None. lia.
Qed.

Lemma layer_values_2d (r : raster Q) d lyr vals : r_is2d r = true -> r_data2d r = Some d -> Z.of_nat (length d) = r_ncells r ->
  Forall (fun c => Z.of_nat (length c) = r_nlyrs r) d -> layer_ok r lyr -> layer_values r lyr vals ->
  vals = column d (Z.to_nat (lyr - 1)).
Proof.
  intros E Ed Ln F L H. unfold layer_values in H. apply nth_error_ext. intros i. unfold column.
  assert (LV : length vals = length d) by (apply F2_length in H; rewrite zseq_length in H; lia).
  rewrite nth_error_map.
  destruct (nth_error d i) as [c|] eqn:Ex; cbn [option_map].
  - assert (i < length d)%nat by (apply nth_error_Some; congruence).
    assert (Hz : nth_error (zseq (r_ncells r)) i = Some (Z.of_nat i)) by (apply zseq_nth_nat; lia).
    destruct (nth_error vals i) as [y|] eqn:Ey; [|apply nth_error_None in Ey; lia].
    assert (G : GetValueByIndex r (Z.of_nat i) lyr = Ok y).
    { exact (F2_nth _ _ _ H i _ _ Hz Ey). }
    unfold GetValueByIndex in G. assert (V : ValidateRasterData r = true) by (unfold ValidateRasterData; rewrite E, Ed; reflexivity).
    rewrite V, (proj2 (vl_true _ _) L) in G. rewrite (proj2 (vi_true _ _)) in G by lia. cbn [negb orb] in G.
    unfold read_cell in G. rewrite E, Ed in G. cbn [deref obind] in G.
    rewrite (aget_ok d (Z.of_nat i) c) in G by (try lia; rewrite Nat2Z.id; exact Ex). cbn [obind] in G. apply aget_inv in G. destruct G as [_ G].
    f_equal. erewrite nth_error_nth; [reflexivity|exact G].
  - apply nth_error_None in Ex. apply nth_error_None. lia.
Qed.

(** Calculating on any object with storage. *)
Lemma Calc_ok o : o_scalc o = false -> named (o_stats o) ->
  (r_is2d (o_r o) = true -> named (o_stats2 o) \/ o_stats2 o = []) ->
  storage (o_r o) (r_ncells (o_r o)) -> 0 <= r_ncells (o_r o) -> 1 <= r_nlyrs (o_r o) ->
  covers t1 (Z.to_nat (r_ncells (o_r o))) ->
  (forall j, 0 <= j < r_nlyrs (o_r o) -> covers (t2 j) (Z.to_nat (r_ncells (o_r o)))) ->
  exists o' st, Calc o = Ok o' /\ keeps o' st /\ o_r o' = o_r o /\ o_default o' = o_default o /\ stats_ok o' /\
  forall lyr vals, layer_ok (o_r o) lyr -> layer_values (o_r o) lyr vals ->
    describes feq sqrt (r_nodata (o_r o)) vals (st lyr).
Proof.
  intros Hs Hn H2 St Hc Hl C1 C2. destruct (CalculateStatistics_named dNODATA (basic1Q feq sqrt t1) (basic2Q feq sqrt t2) o Hs Hn) as (s2 & A & B & E).
  rewrite E. clear E. cbv zeta. unfold storage in St. destruct (r_is2d (o_r o)) eqn:E2; cbn [andb].
  - destruct St as (d & Ed & Ld & F). rewrite Ed. cbn [isnull negb elems].
    assert (N2 : named s2).
    { destruct (H2 eq_refl) as [N| E]; [|apply B, E]. destruct (o_stats2 o) eqn:X; [apply B; reflexivity|].
      rewrite A by discriminate. exact N. }
    assert (F' : Forall (fun c => length c = Z.to_nat (r_nlyrs (o_r o))) d) by (eapply Forall_impl; [|exact F]; cbn; intros; lia).
    destruct (BasicStatistics2D_ok feq sqrt (r_nodata (o_r o)) d (Z.to_nat (r_nlyrs (o_r o))) t2 F') as (sts & Es & Ls & Hst).
    { intros j Hj. rewrite <- (Nat2Z.id (length d)), Ld. apply C2. lia. }
    rewrite Ld, Z2Nat.id in Es by lia. unfold basic2Q. rewrite Es. cbn [obind map].
    match goal with |- context[put_derived s2 ?l] => set (vs := l) end.
    destruct (put_derived_any s2 vs ltac:(cbn; lia) N2) as (m' & Em & Nm & Lm). rewrite Em. cbn [obind].
    set (st := fun lyr => nth (Z.to_nat (lyr - 1)) sts (mkStats 0 None 0 0 None 0)).
    assert (KL : forall k, In k stats_names -> exists l, lookup m' k = Some (Some l) /\ Z.of_nat (length l) = r_nlyrs (o_r o) /\
         forall lyr, layer_ok (o_r o) lyr -> exists v, aget l (lyr - 1) = Ok v /\ figure (st lyr) k = Some v).
    { intros k I. destruct (name_index k I) as (i & Hi). rewrite (Lm i k Hi).
      assert (X : exists g, nth_error vs i = Some (Some (map g sts)) /\ forall s, nth_error (six s) i = Some (g s)).
      { assert (i < 6)%nat by (change 6%nat with (length derived_names); apply nth_error_Some; congruence).
        do 6 (destruct i as [|i]; [eexists; split; [reflexivity|reflexivity]|]). lia. }
      destruct X as (g & -> & Hg). exists (map g sts). split; [reflexivity|]. rewrite map_length. split; [lia|].
      intros lyr Hlyr. unfold layer_ok in Hlyr. exists (g (st lyr)). split.
      - apply aget_ok; [lia|]. rewrite nth_error_map. unfold st. rewrite (nth_error_nth' sts (mkStats 0 None 0 0 None 0)) by lia. reflexivity.
      - rewrite (figure_index _ i k Hi). apply Hg. }
    exists (set_stats o (o_stats o) m' true), st. split; [reflexivity|]. split; [|split; [reflexivity|split; [reflexivity|split]]].
    + split; [reflexivity|]. split; [exact Hn|]. cbn [o_r set_stats o_stats2 o_stats]. rewrite E2. exact KL.
    + split; [exact Hn|]. cbn [o_r set_stats o_stats2 o_scalc]. intros _. split; [exact Nm|]. intros k p I.
      assert (In k stats_names) as IN by (apply Nm; apply (in_map fst) in I; exact I).
      apply In_lookup in I; [|apply Nm]. destruct (KL k IN) as (l & L1 & L2 & _). exists l. split; [congruence|exact L2].
    + intros lyr vals Hlyr HV. rewrite (layer_values_2d (o_r o) d lyr vals E2 Ed Ld F Hlyr HV).
      unfold layer_ok in Hlyr. apply Hst. unfold st. apply nth_error_nth'. lia.
  - destruct St as (E1 & d & Ed & Ld). rewrite Ed. cbn [elems].
    destruct (BasicStatistics_ok feq sqrt (r_nodata (o_r o)) d t1) as (st & Es & Hst).
    { rewrite <- (Nat2Z.id (length d)), Ld. exact C1. }
    rewrite Ld in Es. unfold basic1Q. rewrite Es. cbn [obind].
    destruct (put_derived_any (o_stats o) (six st) ltac:(cbn; lia) Hn) as (m' & Em & Nm & Lm). rewrite Em. cbn [obind].
    exists (set_stats o m' s2 true), (fun _ => st). split; [reflexivity|]. split; [|split; [reflexivity|split; [reflexivity|split]]].
    + split; [reflexivity|]. split; [exact Nm|]. cbn [o_r set_stats o_stats2 o_stats]. rewrite E2. intros k I lyr _.
      destruct (name_index k I) as (i & Hi). rewrite (Lm i k Hi). symmetry. apply figure_index, Hi.
    + split; [exact Nm|]. cbn [o_r set_stats]. rewrite E2. discriminate.
    + intros lyr vals Hlyr HV. rewrite (layer_values_1d (o_r o) d lyr vals E2 E1 Ed Ld Hlyr HV). exact Hst.
Qed.

Local Notation ready := (ready t1 t2).

Theorem Get_fresh o name lyr vals : stats_ok o -> o_scalc o = false -> ready o -> layer_ok (o_r o) lyr ->
  In (GetUpper name) stats_names -> layer_values (o_r o) lyr vals ->
  exists o' v st, Get o name lyr = Ok (o', v) /\ figure st (GetUpper name) = Some v /\
    describes feq sqrt (r_nodata (o_r o)) vals st /\ o_scalc o' = true /\ stats_ok o' /\ o_r o' = o_r o.
Proof.
  intros (Hn & H2) Hs (St & Hc & Hl & C1 & C2) Hlyr I HV.
  assert (H2' : r_is2d (o_r o) = true -> named (o_stats2 o) \/ o_stats2 o = []) by (intros X; left; apply H2, X).
  destruct (Calc_ok o Hs Hn H2' St Hc Hl C1 C2) as (o' & st & E & K & Er & Ed & Ok' & Hd).
  destruct (figure_name (st lyr) _ I) as (v & Hv).
  pose proof (storage_valid _ _ St) as V.
  assert (G : Get o' name lyr = Ok (o', v)).
  { apply (Get_keeps o' st); auto; rewrite Er; auto. }
  exists o', v, (st lyr). split; [|split; [exact Hv|split; [apply Hd; auto|split; [apply K|split; [exact Ok'|exact Er]]]]].
  unfold GetStatistics in *. rewrite Er in G. rewrite V, (proj2 (vl_true _ _) Hlyr) in *. cbn [negb orb] in *.
  unfold ValidateRasterData in V. destruct (r_is2d (o_r o)) eqn:E2; cbn [andb negb orb] in *.
  - rewrite V in *. destruct (H2 eq_refl) as (N2 & Hall). rewrite Hs in Hall.
    pose proof (named_lookup _ _ N2 I) as L. destruct (lookup (o_stats2 o) (GetUpper name)) as [p|] eqn:Lp; [|congruence].
    assert (p = None) as -> by (eapply Hall, lookup_In, Lp). cbn [isnull].
    assert (Eo : set_stats o (o_stats o) (o_stats2 o) false = o) by (rewrite <- Hs; destruct o; reflexivity).
    rewrite Eo, E. cbn [obind].
    destruct K as (_ & _ & K). specialize (K _ I). rewrite Er, E2 in K. destruct K as (l & Ll & _ & Hx). unfold at_get. rewrite Ll. cbn [obind deref].
    destruct (Hx lyr) as (w & -> & Hw); [exact Hlyr|]. cbn [obind]. congruence.
  - pose proof (named_lookup _ _ Hn I) as L. destruct (lookup (o_stats o) (GetUpper name)) as [x|] eqn:Lx; [|congruence].
    rewrite Hs, orb_true_r, E. cbn [obind].
    destruct K as (_ & _ & K). specialize (K _ I). rewrite Er, E2 in K. unfold at_get. rewrite (K lyr Hlyr), Hv. reflexivity.
Qed.

Theorem Get_updated o name lyr vals : stats_ok o -> ready o -> layer_ok (o_r o) lyr ->
  In (GetUpper name) stats_names -> layer_values (o_r o) lyr vals ->
  exists o' v st, Update o = Ok o' /\ Get o' name lyr = Ok (o', v) /\ figure st (GetUpper name) = Some v /\
    describes feq sqrt (r_nodata (o_r o)) vals st /\ o_scalc o' = true /\ stats_ok o' /\ o_r o' = o_r o.
Proof.
  intros (Hn & H2) (St & Hc & Hl & C1 & C2) Hlyr I HV. unfold UpdateStatistics.
  match goal with |- context[Calc ?a] => set (o1 := a) end.
  assert (Er1 : o_r o1 = o_r o) by (subst o1; destruct (r_is2d (o_r o) && o_scalc o); reflexivity).
  assert (Hn1 : named (o_stats o1)) by (subst o1; destruct (r_is2d (o_r o) && o_scalc o); exact Hn).
  assert (H21 : r_is2d (o_r o1) = true -> named (o_stats2 o1) \/ o_stats2 o1 = []).
  { rewrite Er1. intros X. subst o1. rewrite X. destruct (o_scalc o); cbn [andb]; [right; reflexivity|left; apply H2, X]. }
  rewrite <- Er1 in *.
  destruct (Calc_ok o1 eq_refl Hn1 H21 St Hc Hl C1 C2) as (o' & st & E & K & Er & Ed & Ok' & Hd).
  destruct (figure_name (st lyr) _ I) as (v & Hv).
  exists o', v, (st lyr). split; [exact E|]. split; [|split; [exact Hv|split; [apply Hd; auto|split; [apply K|split; [exact Ok'|congruence]]]]].
  apply (Get_keeps o' st); auto; rewrite Er; [apply (storage_valid _ _ St)|exact Hlyr].
Qed.
End Q.

Section Stale.
Context {T D : Type}.
Variable feqD : D -> D -> bool.
Variable dNODATA : D.
Variable basic1 basic1' : list T -> Z -> T -> outcome (list D).
Variable basic2 basic2' : list (list T) -> Z -> Z -> T -> outcome (list (list D)).

(** Once calculated, an answer no longer depends on the cells. *)
Theorem Get_stale (o : robj T D) r' name lyr o1 v : stats_ok o -> o_scalc o = true ->
  ValidateRasterData (o_r o) = true -> ValidateRasterData r' = true ->
  r_is2d r' = r_is2d (o_r o) -> r_nlyrs r' = r_nlyrs (o_r o) ->
  GetStatistics feqD dNODATA basic1 basic2 o name lyr = Ok (o1, v) ->
  GetStatistics feqD dNODATA basic1' basic2' (set_r o r') name lyr = Ok (set_r o r', v).
Proof.
  intros (Hn & H2) Hs V V' E2 El. unfold GetStatistics. cbn [o_r set_r o_stats o_stats2 o_default o_scalc]. rewrite V, V'.
  assert (VL : ValidateLayer r' lyr = ValidateLayer (o_r o) lyr) by (unfold ValidateLayer; now rewrite El). rewrite VL, E2. cbn [negb orb].
  destruct (negb (ValidateLayer (o_r o) lyr)); [congruence|].
  unfold ValidateRasterData in V, V'. rewrite E2 in V'. destruct (r_is2d (o_r o)); cbn [andb orb negb] in *.
  - rewrite V, V'. destruct (H2 eq_refl) as (N2 & Hall). rewrite Hs in Hall.
    destruct (lookup (o_stats2 o) (GetUpper name)) as [p|] eqn:Lp; [|congruence].
    pose proof (lookup_In _ _ _ Lp) as I. destruct (Hall _ _ I) as (l & -> & _). cbn [isnull obind]. unfold at_get. cbn [o_stats2 set_r]. rewrite Lp. cbn [obind deref].
    destruct (aget l (lyr - 1)); cbn [obind]; congruence.
  - destruct (lookup (o_stats o) (GetUpper name)) as [x|] eqn:Lx; [|congruence].
    assert (Eo : CalculateStatistics dNODATA basic1 basic2 o = Ok o) by (unfold CalculateStatistics; now rewrite Hs).
    assert (Eo' : CalculateStatistics dNODATA basic1' basic2' (set_r o r') = Ok (set_r o r')) by (unfold CalculateStatistics; cbn [o_scalc set_r]; now rewrite Hs).
    rewrite Eo, Eo'. destruct (feqD x dNODATA || negb (o_scalc o)); cbn [obind]; unfold at_get; cbn [o_stats set_r]; rewrite Lx; cbn [obind]; congruence.
Qed.

Theorem GetArray_never (o : robj T D) name : ValidateRasterData (o_r o) = true ->
  GetStatisticsArray dNODATA basic1 basic2 o name = Ok (o, None, None).
Proof.
  unfold ValidateRasterData, GetStatisticsArray. destruct (r_is2d (o_r o)); cbn [negb andb orb]; intros H; rewrite ?H; reflexivity.
Qed.
End Stale.
