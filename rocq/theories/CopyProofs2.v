(** Copy makes an object that reads like its source. *)
From Coq Require Import ZArith QArith List Bool Lia String Sorted.
From Verif Require Import Base StrModel MapModel MapProofs RasterModel RasterSpec ListLib RasterProofs
  SubsetModel SubsetProofs CopyModel CopySpec CopyProofs.
Import List ListNotations.
Open Scope Z_scope.
Open Scope outcome_scope.

Lemma emplace_all_NoDup {V} (v : V) ks : NoDup (map fst (fold_left (fun m k => emplace m k v) ks [])).
Proof.
  assert (X : forall m : smap V, NoDup (map fst m) -> NoDup (map fst (fold_left (fun m k => emplace m k v) ks m))).
  { induction ks as [|k ks IH]; intros m N; [exact N|]. cbn [fold_left]. apply IH, emplace_NoDup, N. }
  apply X. constructor.
Qed.

Section Copy.
Context {T D : Type}.
Variable feqD : D -> D -> bool.
Variable dNODATA : D.
Variable tNODATA tDefault : T.
Variable type_in_options : smap bytes -> Z.
Variable junkT : nat -> list T.
Variable junkZ : nat -> list Z.
Variable junkD : nat -> list D.
Local Notation obj := (robj T D).
Local Notation Copy := (Copy dNODATA tNODATA tDefault type_in_options junkT junkZ junkD).
Local Notation CopyCtor := (CopyCtor dNODATA tNODATA tDefault type_in_options junkT junkZ junkD).
Local Notation CopyFill := (CopyFill dNODATA tNODATA tDefault type_in_options junkT junkZ junkD).
Local Notation InitializeRasterClass := (@InitializeRasterClass T D dNODATA tNODATA tDefault).

(** What two rasters must share to answer alike. *)
Lemma same_cells_intro (r r' : raster T) :
  r_is2d r' = r_is2d r -> (if r_is2d r then r_data2d r' = r_data2d r else r_data r' = r_data r) ->
  r_pos r' = r_pos r -> r_posidx r' = r_posidx r -> r_calc r' = r_calc r ->
  r_rows r' = r_rows r -> r_cols r' = r_cols r -> r_xll r' = r_xll r -> r_yll r' = r_yll r -> r_cs r' = r_cs r ->
  r_hnodata r' = r_hnodata r -> r_hcells r' = r_hcells r -> r_hlyrs r' = r_hlyrs r ->
  r_ncells r' = r_ncells r -> r_nlyrs r' = r_nlyrs r -> r_nodata r' = r_nodata r -> r_default r' = r_default r ->
  same_cells r r'.
Proof.
  intros H1 H2 H3 H4 H5 H6 H7 H8 H9 H10 H11 H12 H13 H14 H15 H16 H17.
  assert (V : ValidateRasterData r' = ValidateRasterData r) by (apply ValidateRasterData_alike; auto).
  assert (RC : forall i l, read_cell r' i l = read_cell r i l).
  { intros. unfold read_cell. rewrite H1. destruct (r_is2d r); rewrite H2; reflexivity. }
  assert (P : forall row col, GetPosition r' row col = GetPosition r row col).
  { intros. unfold GetPosition, ValidateRowCol. rewrite V, H3, H4, H5, H6, H7, H14. reflexivity. }
  assert (I : forall i l, GetValueByIndex r' i l = GetValueByIndex r i l).
  { intros. unfold GetValueByIndex, ValidateIndex, ValidateLayer. rewrite V, H14, H15, H16, RC. reflexivity. }
  split. { intros. unfold GetValue, ValidateRowCol, ValidateLayer. rewrite V, H3, H4, H5, H6, H7, H15, H16, P.
    destruct (GetPosition r row col); cbn [obind]; rewrite ?I, ?RC; reflexivity. }
  split; [exact P|]. split; [exact I|].
  split. { unfold GetRasterData. rewrite H1, H14. destruct (r_is2d r); [|rewrite H2; reflexivity].
    destruct (r_data r'), (r_data r); reflexivity. }
  split. { unfold Get2DRasterData. rewrite H1, H14, H15. destruct (r_is2d r); [rewrite H2; reflexivity|].
    destruct (r_data2d r'), (r_data2d r); reflexivity. }
  repeat (split; [assumption|]). assumption.
Qed.

Lemma holding_storage (r : raster T) : holding r -> storage r (r_ncells r) /\ 0 < r_ncells r /\ 1 <= r_nlyrs r.
Proof.
  clear feqD dNODATA.
  intros [[(H1 & H2 & H3 & H4 & H5 & _) _]|(ix & H1 & H2 & H3 & H4 & _ & H5 & _)].
  - rewrite H4 in *. split; [exact H5|]. split; [nia|exact H3].
  - auto.
Qed.

Lemma holding_alike (r r' : raster T) : same_cells r r' ->
  (if r_is2d r then r_data2d r' = r_data2d r else r_data r' = r_data r) -> holding r -> holding r'.
Proof.
  intros (_ & _ & _ & _ & _ & H3 & H4 & H5 & H1 & H6 & H7 & _ & _ & _ & _ & _ & _ & H14 & H15 & _ & _) Hd H.
  assert (S : forall n, storage r n -> storage r' n).
  { intros n. unfold storage. rewrite H1, H15. destruct (r_is2d r); rewrite Hd; auto. }
  destruct H as [[H C]|(ix & H)]; [left|right; exists ix].
  - unfold full_grid in *. rewrite H3, H4, H5, H6, H7, H14, H15. intuition auto.
  - unfold compact in *. rewrite H3, H4, H5, H6, H7, H14, H15. intuition auto.
Qed.

Lemma CopyFill_ok (o src : obj) : sound src ->
  r_init (o_r o) = true -> named (o_stats o) -> r_pos (o_r o) = None -> r_posidx (o_r o) = None ->
  o_subset o = [] -> o_scalc o = false -> NoDup (map fst (o_opts o)) ->
  (if r_is2d (o_r src)
   then r_data2d (o_r o) = None /\ named (o_stats2 o) /\ forall k p, In (k, p) (o_stats2 o) -> p = None
   else r_is2d (o_r o) = false /\ r_data (o_r o) = None) ->
  exists o', CopyFill src o = Ok o' /\ reads_like feqD dNODATA src o' /\ sound o'.
Proof.
  intros (Hh & (Ns & Hs) & Fs & NDs & NDo) Hi Nt Hp Hpi Hsub Hsc NDt Hd.
  destruct (holding_storage _ Hh) as (St & Hn & Hl).
  unfold CopyModel.CopyFill. set (rs := o_r src) in *.
  unfold InitializeReadFunction. rewrite Hi.
  cbn [o_r r_data r_data2d r_pos r_posidx r_default r_calc r_store r_maskext r_init r_is2d o_default o_path o_opts o_mask o_stats o_stats2 o_scalc o_subset].
  (* cells *)
  set (dd := if r_is2d rs then _ else _).
  assert (Ed : exists d d2, dd = Ok (d, d2) /\ (if r_is2d rs then d2 = r_data2d rs else d = r_data rs)).
  { subst dd. unfold storage in St. destruct (r_is2d rs) eqn:E2.
    - destruct St as (d & E & L & F). destruct Hd as (Hd & _). rewrite Hd, E, copy2d_same by (auto; lia).
      cbn [obind]. eauto.
    - destruct St as (_ & d & E & L). destruct Hd as (_ & Hd). rewrite Hd, E, copy1d_same by auto. cbn [obind]. eauto. }
  destruct Ed as (d & d2 & -> & Ed). cbn [obind fst snd].
  (* positions *)
  set (pp := if r_calc rs then _ else _).
  assert (Ep : pp = Ok (r_pos rs, r_posidx rs)).
  { subst pp. rewrite Hp, Hpi. destruct Hh as [[(_ & _ & _ & _ & _ & P1 & P2) C]|(ix & _ & _ & _ & _ & Ln & _ & C & P2 & P1 & _)].
    - rewrite C, P1, P2. reflexivity.
    - rewrite C, P1, P2, copy_pos_same, copy1d_same; [reflexivity|lia|rewrite map_length; lia|lia]. }
  rewrite Ep. cbn [obind fst snd].
  set (r' := mkRaster _ _ _ _ _ _ _ _ _ _ _ _ _ _ _ _ _ _ _ _ _).
  assert (SC : same_cells rs r').
  { apply same_cells_intro; try reflexivity.
    - cbn [r' r_is2d]. destruct (r_is2d rs); [reflexivity|]. apply Hd.
    - cbn [r' r_data r_data2d]. exact Ed. }
  assert (E2 : r_is2d r' = r_is2d rs) by apply SC.
  (* statistics *)
  set (o2 := mkRobj r' _ _ _ _ _ _ _ _ _ _).
  assert (Est : exists o3, CopyStats junkD src o2 = Ok o3 /\ stats_alike src o3 /\ stats_ok o3 /\
            (o_r o3, o_default o3, o_path o3, o_opts o3, o_type o3, o_outtype o3, o_mask o3, o_subset o3) =
            (o_r o2, o_default o2, o_path o2, o_opts o2, o_type o2, o_outtype o2, o_mask o2, o_subset o2)).
  { assert (Al : forall s s2 c, c = o_scalc src -> named s ->
        (if r_is2d rs then named s2 /\ (forall k, lookup s2 k = lookup (o_stats2 src) k)
         else (c = true -> forall k, lookup s k = lookup (o_stats src) k)) ->
        stats_alike src (set_stats o2 s s2 c)).
    { intros s s2 c Ec Nn Hx. unfold stats_alike. cbn [o_r set_stats o2 o_stats o_stats2 o_scalc o_default].
      fold rs. rewrite E2. repeat (split; [reflexivity || assumption|]).
      cbn [r' r_data r_data2d]. destruct (r_is2d rs) eqn:E2'.
      - destruct (Hs eq_refl) as (N2 & _). destruct Hx as (N2' & Hx). repeat (split; [assumption|]). exact Hx.
      - split; [exact Ed|]. rewrite Ec in Hx. exact Hx. }
    unfold CopyStats. cbn [o2 o_r o_stats o_stats2]. rewrite E2.
    destruct (o_scalc src) eqn:Sc.
    - destruct (r_is2d rs) eqn:E2'.
      + destruct (Hs eq_refl) as (N2 & Hall). destruct Hd as (_ & Nt2 & _).
        destruct (copy_stats2_ok junkD (r_nlyrs r') (o_stats2 src) (o_stats2 o)) as (m' & Em & Nm & Lm).
        { exact Nt2. } { apply N2. } { intros k I. apply N2, I. } { exact Hall. }
        rewrite Em. cbn [obind]. eexists. split; [reflexivity|].
        assert (LL : forall k, lookup m' k = lookup (o_stats2 src) k).
        { intros k. rewrite Lm. destruct (lookup (o_stats2 src) k) eqn:L1; [reflexivity|].
          destruct (lookup (o_stats2 o) k) eqn:L2; [|reflexivity]. exfalso.
          assert (In k stats_names) by (apply (named_lookup_in (o_stats2 o)); [exact Nt2|congruence]).
          pose proof (named_lookup (o_stats2 src) k N2 H). congruence. }
        split; [apply Al; auto|]. split; [|reflexivity].
        unfold stats_ok. cbn [o_r set_stats o2 o_stats o_stats2 o_scalc]. split; [exact Nt|]. intros _. split; [exact Nm|].
        intros k p I. apply In_lookup in I; [|apply Nm]. rewrite LL in I. apply lookup_In in I. exact (Hall k p I).
      + cbn [obind]. eexists. split; [reflexivity|].
        rewrite <- CopyMap_fold.
        assert (LL : forall k, lookup (CopyMap (o_stats src) (o_stats o)) k = lookup (o_stats src) k).
        { intros k. rewrite CopyMap_lookup by apply Ns. destruct (lookup (o_stats src) k) eqn:L1; [reflexivity|].
          destruct (lookup (o_stats o) k) eqn:L2; [|reflexivity]. exfalso.
          assert (In k stats_names) by (apply (named_lookup_in (o_stats o)); [exact Nt|congruence]).
          pose proof (named_lookup (o_stats src) k Ns H). congruence. }
        assert (Nm : named (CopyMap (o_stats src) (o_stats o))).
        { apply (named_of_lookup (o_stats src)); [exact Ns|apply CopyMap_NoDup, Nt|]. intros k. rewrite LL. tauto. }
        split; [apply Al; auto|]. split; [|reflexivity].
        unfold stats_ok. cbn [o_r set_stats o2 o_stats o_stats2 o_scalc]. split; [exact Nm|]. rewrite E2. discriminate.
    - eexists. split; [reflexivity|]. split; [|split; [|reflexivity]].
      + apply Al; auto. destruct (r_is2d rs) eqn:E2'; [|discriminate].
        destruct (Hs eq_refl) as (N2 & Hall). destruct Hd as (_ & Nt2 & Hnone). split; [exact Nt2|]. intros k.
        destruct (lookup (o_stats2 src) k) as [p|] eqn:L1; destruct (lookup (o_stats2 o) k) as [q|] eqn:L2; try reflexivity.
        * apply lookup_In, Hall in L1. apply lookup_In, Hnone in L2. congruence.
        * exfalso. assert (In k stats_names) by (apply (named_lookup_in (o_stats2 src)); [exact N2|congruence]).
          pose proof (named_lookup (o_stats2 o) k Nt2 H). congruence.
        * exfalso. assert (In k stats_names) by (apply (named_lookup_in (o_stats2 o)); [exact Nt2|congruence]).
          pose proof (named_lookup (o_stats2 src) k N2 H). congruence.
      + unfold stats_ok. cbn [o_r set_stats o2 o_stats o_stats2 o_scalc]. split; [exact Nt|]. rewrite E2. intros E2'.
        rewrite E2' in Hd. destruct Hd as (_ & Nt2 & Hnone). split; [exact Nt2|exact Hnone]. }
  destruct Est as (o3 & -> & Al & Ok3 & Eq). cbn [obind].
  injection Eq as Er Edf Epa Eop Ety Eot Ema Esu.
  (* subsets *)
  destruct (deep_fold_ok junkZ junkD (o_subset src) [] Fs NDs (SSorted_nil _)) as (m & Em & Km & Hm).
  unfold deep_fold in Em. rewrite Em. cbn [obind]. eexists. split; [reflexivity|].
  assert (FM : Forall (fun ks => subset_full (snd ks)) m).
  { apply Forall_forall. intros [k s'] I. cbn [snd]. apply In_zfind in I; [|exact Km]. specialize (Hm k).
    destruct (zfind (o_subset src) k) as [s|] eqn:Zs; [|cbn in Hm; congruence].
    destruct Hm as (s1 & E1 & S1). assert (s1 = s') by congruence. subst s1.
    assert (subset_full s) as SF.
    { rewrite Forall_forall in Fs. specialize (Fs (k, s)). apply Fs.
      clear -Zs. induction (o_subset src) as [|[q b] l IH]; cbn in *; [discriminate|].
      destruct (k =? q) eqn:Eq; [left; f_equal; [lia|congruence]|right; auto]. }
    clear -SF S1. destruct S1 as (? & A & B & ? & ? & ? & ? & C & E & F & G & H').
    unfold subset_full in *. rewrite A, B, C, E, F, G, H'. exact SF. }
  split.
  - unfold reads_like. cbn [o_r set_subset o_default o_path o_type o_outtype o_mask o_opts o_subset].
    rewrite Er, Edf, Epa, Eop, Ety, Eot, Ema. cbn [o2 o_r o_default o_path o_opts o_type o_outtype o_mask].
    split; [exact SC|]. repeat (split; [reflexivity|]).
    split. { intros k v L. rewrite CopyMap_lookup by exact NDo. rewrite L. reflexivity. }
    split; [|exact Hm].
    intros basic1 basic2 name lyr s v G. eapply GetStatistics_alike; [|exact G].
    clear -Al. destruct o3. exact Al.
  - unfold sound. cbn [o_r set_subset o_subset o_opts]. rewrite Er, Eop. cbn [o2 o_r o_opts].
    split. { apply (holding_alike rs); [exact SC|exact Ed|exact Hh]. }
    split. { clear -Ok3. destruct o3. exact Ok3. }
    split; [exact FM|]. split; [|apply CopyMap_NoDup, NDt].
    clear -Km. unfold ksorted in Km. induction Km as [|a l Km IH F]; constructor; [|exact IH].
    intros I. rewrite Forall_forall in F. specialize (F a I). lia.
Qed.

Theorem Copy_ok (t src : obj) : sound src -> can_receive t src ->
  exists o, Copy t src = Ok o /\ reads_like feqD dNODATA src o /\ sound o.
Proof.
  intros S (Hi & NDt & Nt & Hp & Hc). unfold CopyModel.Copy, CopyRelease.
  set (d2 := if r_is2d (o_r t) && _ && _ then _ else _).
  assert (Ed2 : exists x, d2 = Ok x /\ (r_is2d (o_r src) = true -> x = None)).
  { subst d2. destruct (r_is2d (o_r src)) eqn:E2.
    - destruct Hc as ([E|(E1 & E3 & E4)] & _).
      + rewrite E. cbn [isnull negb]. rewrite andb_false_r. cbn [andb]. eauto.
      + rewrite E1. replace (0 <? r_ncells (o_r t)) with true by lia.
        destruct (r_data2d (o_r t)) as [[|c d]|]; cbn; [congruence| |]; eauto.
    - rewrite Hc. cbn [andb]. eexists. split; [reflexivity|discriminate]. }
  destruct Ed2 as (x & -> & Hx). cbn [obind].
  assert (Er : release2d (r_pos (o_r t)) = Ok tt) by (destruct (r_pos (o_r t)) as [[|]|]; cbn; congruence).
  rewrite Er. cbn [obind].
  match goal with |- context[CopyFill src ?a] => set (o1 := a) end.
  destruct (CopyFill_ok o1 src S) as (o' & E & R).
  - subst o1. destruct (o_scalc (set_r t _)) eqn:X; exact Hi.
  - subst o1. destruct (o_scalc (set_r t _)) eqn:X; exact Nt.
  - subst o1. destruct (o_scalc (set_r t _)) eqn:X; reflexivity.
  - subst o1. destruct (o_scalc (set_r t _)) eqn:X; reflexivity.
  - subst o1. destruct (o_scalc (set_r t _)) eqn:X; reflexivity.
  - subst o1. destruct (o_scalc (set_r t _)) eqn:X; cbn [o_scalc set_subset set_stats]; [reflexivity|exact X].
  - subst o1. destruct (o_scalc (set_r t _)) eqn:X; exact NDt.
  - subst o1. destruct (r_is2d (o_r src)) eqn:E2.
    + destruct Hc as (_ & Sc & N2 & Hn). assert (X : o_scalc (set_r t (set_pos (set_cells (o_r t) (if negb (r_is2d (o_r t)) then None else r_data (o_r t)) x) None None (r_calc (o_r t)) (r_store (o_r t)))) = false) by exact Sc.
      rewrite X. cbn [o_r set_subset set_r set_pos r_data2d set_cells o_stats2]. auto.
    + destruct (o_scalc (set_r t _)) eqn:X; cbn [o_r set_subset set_stats set_r set_pos set_cells r_is2d r_data];
      rewrite Hc; auto.
  - eauto.
Qed.

Lemma initial_named_stats : named (o_stats (InitializeRasterClass false)).
Proof. apply named_initial. right. reflexivity. Qed.
Lemma initial_named_stats2 : named (o_stats2 (InitializeRasterClass false)).
Proof. apply named_initial. right. reflexivity. Qed.
Lemma initial_stats2_null k p : In (k, p) (o_stats2 (InitializeRasterClass false)) -> p = None.
Proof. vm_compute. intros H. repeat (destruct H as [H|H]; [congruence|]). contradiction. Qed.

Theorem initial_can_receive (src : obj) : can_receive (InitializeRasterClass false) src.
Proof.
  split; [reflexivity|]. split; [apply emplace_all_NoDup|]. split; [apply initial_named_stats|]. split; [discriminate|].
  destruct (r_is2d (o_r src)); [|reflexivity]. split; [left; reflexivity|]. split; [reflexivity|].
  split; [apply initial_named_stats2|apply initial_stats2_null].
Qed.

Theorem CopyCtor_ok (src : obj) : sound src -> exists o, CopyCtor src = Ok o /\ reads_like feqD dNODATA src o /\ sound o.
Proof. intros S. apply Copy_ok; [exact S|apply initial_can_receive]. Qed.
End Copy.
