(** C123-C127: masking with a mask that has subsets. *)
From Coq Require Import ZArith QArith List Bool Lia Lqa Sorted Permutation.
From Verif Require Import Base ListLib RasterModel RasterSpec RasterProofs RasterProofs2 RasterProofs3 CoordModel CoordSpec
  MaskModel MaskSpec MaskProofs MaskProofs2 MaskProofs3 MaskProofs4 MaskProofs5 SubsetModel SubsetSpec SubsetProofs SubsetProofs2 SubsetProofs4
  MaskProps MaskSubModel MaskSubSpec MaskSubProofs MaskSubProofs2 MaskSubProofs3 MaskSubProofs4.
Import ListNotations.
Open Scope Z_scope.
Open Scope outcome_scope.

(** ** C123. Subsets built from the mask describe the cells of their zones. *)
Theorem C123_built : forall (M D : Type) (feqM : M -> M -> bool) (toint : M -> option Z) (m : raster M) ix groups ord (subs : list (Z * subset D)),
  compact m ix -> zones_fit feqM toint m -> BuildSubSet feqM toint ord m [] groups = Ok (m, subs, true) -> subs <> [] ->
  exists cells, mask_subsets m subs cells /\
    forall k s rc, In (k, s) subs -> (In rc (cells k) <-> exists vi, in_group feqM toint m groups k vi /\ indexes m vi rc).
Proof.
  intros M D feqM toint m ix groups ord subs C FIT E NE.
  destruct (Build_compact (D := D) feqM toint m ix groups C FIT ord) as (subs' & E' & KS & ZF).
  assert (subs' = subs) by congruence. subst subs'.
  exists (fun k => map (fun vi => (prow m ix vi, pcol m ix vi)) (cells feqM toint m groups k (all m))).
  pose proof C as (_&PC&_&_&NC&_&_&_&_&_&FO). rewrite Forall_forall in FO.
  assert (AT : forall vi, 0 <= vi < r_ncells m -> indexes m vi (prow m ix vi, pcol m ix vi)).
  { intros vi B. assert (L : (Z.to_nat vi < length ix)%nat) by lia. pose proof (FO _ (nth_In ix 0 L)) as R.
    pose proof (Z.div_mod (nth (Z.to_nat vi) ix 0) (r_cols m) ltac:(lia)) as DM. pose proof (Z.mod_pos_bound (nth (Z.to_nat vi) ix 0) (r_cols m) PC) as MB.
    apply (indexes_nth m ix); [exact C| |lia|].
    - cbn [fst snd]. unfold prow, pcol. split; [|exact MB]. split; [apply Z.div_pos; lia|]. apply Z.div_lt_upper_bound; lia.
    - cbn [fst snd]. unfold prow, pcol. rewrite (nth_error_nth' ix 0 L). f_equal. lia. }
  split.
  - split; [exact NE|]. intros k s H. apply (subs_shape feqM toint m ix groups subs KS ZF) in H. destruct H as [-> N].
    set (c := cells feqM toint m groups k (all m)) in *.
    assert (FR : forall vi, In vi c -> 0 <= vi < r_ncells m).
    { intros vi Hv. pose proof (cells_range feqM toint m groups k) as F. rewrite Forall_forall in F. apply F, Hv. }
    destruct (final_fields (D := D) m ix c) as (_ & S & _ & D1 & D2 & G & W1 & W2 & W3 & W4 & L1 & L2). cbn zeta in *.
    destruct (wsub_box (D := D) m ix c N) as (B & (v1 & I1 & E1) & (v2 & I2 & E2) & (v3 & I3 & E3) & (v4 & I4 & E4)). cbn zeta in *.
    split; [|split; intros d X; congruence].
    exists c, (lp_of m ix (wsub (D := D) m ix c) c), (li_of m ix (wsub (D := D) m ix c) c).
    split; [unfold subset_of; rewrite G, L1, L2, S; unfold lp_of, li_of; rewrite !map_length; repeat split|].
    split; [|split; [|split]].
    + clear - FR AT. induction c as [|a c IH]; constructor; [apply AT, FR; left; reflexivity|apply IH; intros; apply FR; right; assumption].
    + unfold lp_of. rewrite W1, W3, map_map. reflexivity.
    + unfold li_of, win_cols. rewrite W1, W3, W4, map_map. reflexivity.
    + rewrite W1, W2, W3, W4. split.
      * intros rc I. apply in_map_iff in I. destruct I as (vi & <- & I). cbn [fst snd]. apply B, I.
      * repeat split; [exists (prow m ix v1, pcol m ix v1)|exists (prow m ix v2, pcol m ix v2)|exists (prow m ix v3, pcol m ix v3)|exists (prow m ix v4, pcol m ix v4)];
          (split; [apply (in_map (fun vi => (prow m ix vi, pcol m ix vi))); assumption|cbn [fst snd]; auto]).
  - intros k s rc _. split.
    + intros I. apply in_map_iff in I. destruct I as (vi & <- & I). apply cells_In in I. exists vi. split; [exact I|]. apply AT. apply I.
    + intros (vi & I & X). apply in_map_iff. exists vi. split; [|apply cells_In, I].
      pose proof (rcs_entry m ix vi rc C X) as N1. destruct I as (B & _). pose proof (rcs_entry m ix vi _ C (AT vi B)) as N2. congruence.
Qed.
Print Assumptions C123_built.

(** When the masked raster keeps the mask's grid and positions, it takes over those
    subsets below which the source has a value, with the mask's cells, and they
    describe the same cells of the masked raster. *)
Theorem C123_kept : forall (T M D : Type) (feq : T -> T -> bool) (feqM : M -> M -> bool) (m : raster M) (r : raster T) ord ix
    (msubs rsubs : list (Z * subset D)) cells,
  compact m ix -> mask_order feqM m ord -> loaded r -> r_init r = true -> (0 < r_cs r)%Q -> (0 < r_cs m)%Q -> quiet feq feqM r m ->
  feq (r_nodata r) (r_nodata r) = true -> touches feqM r m -> mask_subsets m msubs cells -> header_known (geo_of m) ->
  r_maskext r = true \/ match_box feq feqM r m 0 (r_rows m - 1) 0 (r_cols m - 1) ->
  r_calc r = false \/ (forall row col, mask_valid feqM m row col -> matches feq r m row col) ->
  exists r' subs', MaskAndCalcSubs feq feqM ord m msubs r rsubs = Ok (r', m, true, 2, subs') /\ geo_of r' = geo_of m /\
    chosen (fun ks => exists rc, In rc (cells (fst ks)) /\ valued feq r m rc)
      (fun ks ks' => ks' = (fst ks, relayered (r_nlyrs r) (snd ks))) msubs subs' /\
    (forall k s', In (k, s') subs' -> describes r' s' (cells k)) /\
    (forall row col lyr v, mask_valid feqM m row col -> layer_ok r lyr -> sees feq r m row col lyr v -> GetValue r' row col lyr = Ok v).
Proof. intros. eapply way_borrow; eassumption. Qed.
Print Assumptions C123_kept.

(** A raster away from the mask, or one whose mask has no subsets, keeps its own. *)
Theorem C123_own : forall (T M D : Type) (feq : T -> T -> bool) (feqM : M -> M -> bool) (m : raster M) (r : raster T) ord (msubs rsubs : list (Z * subset D)),
  wf m -> mask_order feqM m ord -> loaded r -> (0 < r_cs r)%Q -> (0 < r_cs m)%Q ->
  (~ touches feqM r m -> exists m', MaskAndCalcSubs feq feqM ord m msubs r rsubs = Ok (r, m', true, -1, rsubs)) /\
  (forall r' m' k c, MaskAndCalc feq feqM ord m r = Ok (r', m', k, c) -> MaskAndCalcSubs feq feqM ord m [] r rsubs = Ok (r', m', k, c, rsubs)).
Proof.
  intros T M D feq feqM m r ord msubs rsubs W O L SR SM. split.
  - intros NT. destruct (C33_apart T M feq feqM m r ord W O L SR SM NT) as (m' & E). exists m'. unfold MaskAndCalcSubs. rewrite E. reflexivity.
  - intros r' m' k c E. unfold MaskAndCalcSubs. rewrite E. cbn [obind]. rewrite orb_true_r. reflexivity.
Qed.
Print Assumptions C123_own.

(** ** C124. Under the mask's extent with positions of its own, the masked raster
    has fewer cells; the subsets keep the indices of the mask. *)
Theorem C124_stale_refuted : forall (T M D : Type) (feq : T -> T -> bool) (feqM : M -> M -> bool) (m : raster M) (r : raster T) ord ix
    (msubs rsubs : list (Z * subset D)) cells r0 r1 c0 c1,
  compact m ix -> mask_order feqM m ord -> loaded r -> r_init r = true -> (0 < r_cs r)%Q -> (0 < r_cs m)%Q -> quiet feq feqM r m ->
  feq (r_nodata r) (r_nodata r) = true -> touches feqM r m -> mask_subsets m msubs cells -> header_known (geo_of m) ->
  match_box feq feqM r m r0 r1 c0 c1 ->
  r_maskext r = true \/ (r0 = 0 /\ r1 = r_rows m - 1 /\ c0 = 0 /\ c1 = r_cols m - 1) -> r_calc r = true ->
  (exists row col, mask_valid feqM m row col /\ ~ kept_cell feq feqM r m r0 r1 c0 c1 row col) ->
  exists r' subs', MaskAndCalcSubs feq feqM ord m msubs r rsubs = Ok (r', m, false, 2, subs') /\ r_ncells r' < r_ncells m /\
    chosen (fun ks => exists rc, In rc (cells (fst ks)) /\ kept_cell feq feqM r m r0 r1 c0 c1 (fst rc + r0) (snd rc + c0))
      (fun ks ks' => ks' = (fst ks, relayered (r_nlyrs r) (snd ks))) msubs subs' /\
    (forall k s' g gi, In (k, s') subs' -> s_global s' = Some g -> In gi g -> r_ncells r' <= gi -> ~ describes r' s' (cells k) /\ read_cell r' gi 1 = UB) /\
    (forall k s' rc, In (k, s') subs' -> In rc (cells k) -> indexes m (r_ncells m - 1) rc ->
       exists g, s_global s' = Some g /\ In (r_ncells m - 1) g /\ read_cell r' (r_ncells m - 1) 1 = UB).
Proof.
  intros T M D feq feqM m r ord ix msubs rsubs cells r0 r1 c0 c1 CM O L IN SR SM Q ND TO MS HK MB EXT CA NA.
  destruct (way_shifted feq feqM m r ord ix msubs rsubs cells CM O L IN SR SM Q ND TO MS r0 r1 c0 c1 HK MB EXT CA NA) as (r' & subs' & E & G & CH & LT & (ix' & C')).
  exists r', subs'. split; [exact E|]. split; [exact LT|]. split; [exact CH|].
  assert (RU : forall gi, r_ncells r' <= gi -> read_cell r' gi 1 = UB).
  { intros gi GE. assert (ST : storage r' (r_ncells r')) by apply C'. assert (NN : 0 < r_ncells r') by apply C'. clear - ST GE NN. unfold storage in ST. unfold read_cell.
    destruct (r_is2d r').
    - destruct ST as (d & -> & LD & _). cbn [deref obind]. unfold aget. destruct (gi <? 0) eqn:X; [reflexivity|]. rewrite (proj2 (nth_error_None d _)) by lia. reflexivity.
    - destruct ST as (_ & d & -> & LD). cbn [deref obind]. unfold aget. destruct (gi <? 0) eqn:X; [reflexivity|]. rewrite (proj2 (nth_error_None d _)) by lia. reflexivity. }
  split.
  - intros k s' g gi I SG IG GE. split; [|apply RU, GE].
    intros (g' & lp & li & (S1 & _) & F & _). assert (g' = g) by congruence. subst g'.
    assert (X : exists rc, indexes r' gi rc) by (clear - F IG; induction F; [destruct IG|]; destruct IG as [->|IG]; [eexists; eassumption|auto]).
    destruct X as (rc & _ & B & _). lia.
  - intros k s' rc I IR IX. destruct (chosen_In _ _ _ _ CH) as [CI _]. destruct (CI _ I) as ([k' s] & J & _ & R). injection R as -> ->.
    destruct MS as [_ H]. destruct (H k' s J) as [(g & lp & li & (S1 & _) & F & _) _]. exists g. split; [exact S1|]. split; [|apply RU; lia].
    assert (X : exists gi, In gi g /\ indexes m gi rc) by (clear - F IR; induction F; [destruct IR|]; destruct IR as [->|IR]; [eexists; split; [left; reflexivity|assumption]|destruct (IHF IR) as (gi & A & B); exists gi; split; [right; exact A|exact B]]).
    destruct X as (gi & IG & IX'). destruct IX as (_ & _ & P & _), IX' as (_ & _ & P' & _). assert (EQ : gi = r_ncells m - 1) by congruence. rewrite <- EQ. exact IG.
Qed.
Print Assumptions C124_stale_refuted.

(** ** C125. Trimmed to the matches, the raster gets subsets built anew: of the
    cells that are kept, in the new grid. *)
Theorem C125_rebuilt : forall (T M D : Type) (feq : T -> T -> bool) (feqM : M -> M -> bool) (m : raster M) (r : raster T) ord ix
    (msubs rsubs : list (Z * subset D)) cells r0 r1 c0 c1,
  compact m ix -> mask_order feqM m ord -> loaded r -> r_init r = true -> (0 < r_cs r)%Q -> (0 < r_cs m)%Q -> quiet feq feqM r m ->
  feq (r_nodata r) (r_nodata r) = true -> touches feqM r m -> mask_subsets m msubs cells ->
  header_known (mkGeo (r1 - r0 + 1) (c1 - c0 + 1) (fst (centre m r1 c0)) (snd (centre m r1 c0)) (r_cs m)) ->
  match_box feq feqM r m r0 r1 c0 c1 -> r_maskext r = false -> ~ (r1 - r0 + 1 = r_rows m /\ c1 - c0 + 1 = r_cols m) ->
  (r_calc r = true \/ r_rows m * r_cols m <= 2147483647 /\ r_rows r * r_cols r <> (c1 - c0 + 1) * (r1 - r0 + 1)) ->
  (exists row col, mask_valid feqM m row col /\ ~ matches feq r m row col) ->
  exists r' subs', MaskAndCalcSubs feq feqM ord m msubs r rsubs = Ok (r', m, false, 2, subs') /\
    geo_of r' = mkGeo (r1 - r0 + 1) (c1 - c0 + 1) (fst (centre m r1 c0)) (snd (centre m r1 c0)) (r_cs m) /\
    chosen (fun ks => exists rc, In rc (cells (fst ks)) /\ kept_cell feq feqM r m r0 r1 c0 c1 (fst rc) (snd rc))
      (fun ks ks' => fst ks' = fst ks /\ exists cs',
         chosen (fun rc => kept_cell feq feqM r m r0 r1 c0 c1 (fst rc) (snd rc)) (fun rc rc' => rc' = (fst rc - r0, snd rc - c0)) (cells (fst ks)) cs' /\
         describes r' (snd ks') cs' /\ s_lyrs (snd ks') = r_nlyrs r /\ s_usable (snd ks') = s_usable (snd ks) /\
         s_data (snd ks') = None /\ s_data2 (snd ks') = None) msubs subs' /\
    (forall row col lyr v, kept_cell feq feqM r m r0 r1 c0 c1 row col -> layer_ok r lyr -> sees feq r m row col lyr v ->
       GetValue r' (row - r0) (col - c0) lyr = Ok v).
Proof. intros. eapply way_rebuilt; eassumption. Qed.
Print Assumptions C125_rebuilt.

(** ** C126. When all mask cells match, the subsets are not adjusted to the trimmed
    grid: with positions of its own the windows lie off by the trimmed rows and
    columns. *)
Theorem C126_windows_refuted : forall (T M D : Type) (feq : T -> T -> bool) (feqM : M -> M -> bool) (m : raster M) (r : raster T) ord ix
    (msubs rsubs : list (Z * subset D)) cells r0 r1 c0 c1,
  compact m ix -> mask_order feqM m ord -> loaded r -> r_init r = true -> (0 < r_cs r)%Q -> (0 < r_cs m)%Q -> quiet feq feqM r m ->
  feq (r_nodata r) (r_nodata r) = true -> touches feqM r m -> mask_subsets m msubs cells ->
  header_known (mkGeo (r1 - r0 + 1) (c1 - c0 + 1) (fst (centre m r1 c0)) (snd (centre m r1 c0)) (r_cs m)) ->
  match_box feq feqM r m r0 r1 c0 c1 -> r_maskext r = false -> ~ (r1 - r0 + 1 = r_rows m /\ c1 - c0 + 1 = r_cols m) ->
  r_calc r = true -> (forall row col, mask_valid feqM m row col -> matches feq r m row col) ->
  exists r', MaskAndCalcSubs feq feqM ord m msubs r rsubs = Ok (r', m, false, 2, map (fun ks => (fst ks, relayered (r_nlyrs r) (snd ks))) msubs) /\
    forall k s, In (k, s) msubs ->
      (exists g, s_global s = Some g /\ Forall2 (fun gi rc => indexes r' gi (fst rc - r0, snd rc - c0)) g (cells k)) /\
      (let h := GetHeader (relayered (r_nlyrs r) s) (geo_of r') in
       g_xll h == g_xll (GetHeader s (geo_of m)) + inject_Z c0 * r_cs m /\
       g_yll h == g_yll (GetHeader s (geo_of m)) - inject_Z r0 * r_cs m)%Q /\
      (describes r' (relayered (r_nlyrs r) s) (map (fun rc => (fst rc - r0, snd rc - c0)) (cells k)) <-> r0 = 0 /\ c0 = 0).
Proof.
  intros T M D feq feqM m r ord ix msubs rsubs cells r0 r1 c0 c1 CM O L IN SR SM Q ND TO MS HK MB ME NW CA ALL.
  destruct (way_exact feq feqM m r ord ix msubs rsubs cells CM O L IN SR SM Q ND TO MS r0 r1 c0 c1 HK MB ME NW (or_introl CA) ALL) as (r' & E & G & CC & BB).
  rewrite CA in CC. exists r'. split; [exact E|]. intros k s I. pose proof MS as [_ H]. destruct (H k s I) as [DS _].
  pose proof DS as (g & lp & li & S1 & F & LP & LI & TI). pose proof G as G'. injection G' as G1 G2 G3 G4 G6.
  assert (FF : Forall2 (fun gi rc => indexes r' gi (fst rc - r0, snd rc - c0)) g (cells k)).
  { clear - F CM CC G1 G2 BB. induction F as [|gi rc gl cl X F IH]; constructor; [|exact IH]. eapply indexes_shift; [exact CM|exact CC|exact G2| |exact X].
    pose proof (BB _ _ (compact_valid feqM m ix gi rc CM X)) as B. unfold in_box in B. unfold inside. rewrite G1, G2. lia. }
  split; [exists g; split; [apply S1|exact FF]|]. split.
  { unfold GetHeader. cbn [g_xll g_yll g_cs g_rows geo_of relayered s_scol s_erow]. rewrite G1, G3, G4, G6. unfold Z.sub. repeat (rewrite inject_Z_plus || rewrite inject_Z_opp). change (inject_Z 1) with 1%Q.
    split; ring. }
  split.
  - intros (g' & lp' & li' & S2 & F2 & _ & _ & T2). cbn [relayered s_srow s_erow s_scol s_ecol] in T2.
    destruct TI as (A & (x1 & X1 & Y1) & _ & (x2 & X2 & Y2) & _), T2 as (A' & (z1 & Z1 & W1) & _ & (z2 & Z2 & W2) & _).
    apply in_map_iff in Z1, Z2. destruct Z1 as (u1 & <- & Z1), Z2 as (u2 & <- & Z2). cbn [fst snd] in *.
    pose proof (A' _ (in_map (fun rc => (fst rc - r0, snd rc - c0)) _ _ X1)) as P1. pose proof (A' _ (in_map (fun rc => (fst rc - r0, snd rc - c0)) _ _ X2)) as P2.
    cbn [fst snd] in *. pose proof (A _ Z1). pose proof (A _ Z2). lia.
  - intros [-> ->]. exists g, lp, li. split; [exact S1|].
    assert (EM : map (fun rc => (fst rc - 0, snd rc - 0)) (cells k) = cells k).
    { rewrite <- map_id. apply map_ext. intros [a b]. cbn [fst snd]. rewrite !Z.sub_0_r. reflexivity. }
    rewrite EM. split; [|auto]. clear - FF. induction FF as [|gi rc gl cl X F IH]; constructor; [|exact IH]. rewrite !Z.sub_0_r, <- surjective_pairing in X. exact X.
Qed.
Print Assumptions C126_windows_refuted.

(** Without positions the raster keeps all cells of the rectangle, and the indices of
    the mask stand for earlier cells as soon as the mask leaves one out. *)
Theorem C126_indices_refuted : forall (T M D : Type) (feq : T -> T -> bool) (feqM : M -> M -> bool) (m : raster M) (r : raster T) ord ix
    (msubs rsubs : list (Z * subset D)) cells r0 r1 c0 c1,
  compact m ix -> mask_order feqM m ord -> loaded r -> r_init r = true -> (0 < r_cs r)%Q -> (0 < r_cs m)%Q -> quiet feq feqM r m ->
  feq (r_nodata r) (r_nodata r) = true -> touches feqM r m -> mask_subsets m msubs cells ->
  header_known (mkGeo (r1 - r0 + 1) (c1 - c0 + 1) (fst (centre m r1 c0)) (snd (centre m r1 c0)) (r_cs m)) ->
  match_box feq feqM r m r0 r1 c0 c1 -> r_maskext r = false -> ~ (r1 - r0 + 1 = r_rows m /\ c1 - c0 + 1 = r_cols m) ->
  r_calc r = false -> r_rows m * r_cols m <= 2147483647 -> r_rows r * r_cols r <> (c1 - c0 + 1) * (r1 - r0 + 1) ->
  (forall row col, mask_valid feqM m row col -> matches feq r m row col) ->
  exists r', MaskAndCalcSubs feq feqM ord m msubs r rsubs = Ok (r', m, false, 2, map (fun ks => (fst ks, relayered (r_nlyrs r) (snd ks))) msubs) /\
    forall k s, In (k, s) msubs -> exists g, s_global s = Some g /\
      Forall2 (fun gi rc =>
        (exists p, GetPosition r' (fst rc - r0) (snd rc - c0) = Ok p /\ gi <= p) /\
        forall row col, in_box r0 r1 c0 c1 row col -> ~ mask_valid feqM m row col -> (row < fst rc \/ row = fst rc /\ col < snd rc) ->
          exists p, GetPosition r' (fst rc - r0) (snd rc - c0) = Ok p /\ gi < p) g (cells k).
Proof.
  intros T M D feq feqM m r ord ix msubs rsubs cells r0 r1 c0 c1 CM O L IN SR SM Q ND TO MS HK MB ME NW CA SZ NS ALL.
  destruct (way_exact feq feqM m r ord ix msubs rsubs cells CM O L IN SR SM Q ND TO MS r0 r1 c0 c1 HK MB ME NW (or_intror (conj SZ NS)) ALL) as (r' & E & G & CC & BB).
  rewrite CA in CC. exists r'. split; [exact E|]. intros k s I. pose proof MS as [_ H]. destruct (H k s I) as [DS _].
  pose proof DS as (g & lp & li & S1 & F & LP & LI & TI). pose proof G as G'. injection G' as G1 G2 G3 G4 G6.
  exists g. split; [apply S1|]. clear - F CM CC G1 G2 BB. induction F as [|gi rc gl cl X F IH]; constructor; [|exact IH].
  pose proof (BB _ _ (compact_valid feqM m ix gi rc CM X)) as B. unfold in_box in B.
  assert (P : GetPosition r' (fst rc - r0) (snd rc - c0) = Ok ((fst rc - r0) * (c1 - c0 + 1) + (snd rc - c0))).
  { rewrite GetPosition_full; [rewrite G2; reflexivity|exact CC|]. unfold inside. rewrite G1, G2. lia. }
  split.
  - eexists. split; [exact P|]. assert (BR : forall rc, In rc (rcs m ix) -> in_box r0 r1 c0 c1 (fst rc) (snd rc)) by (intros x I; apply BB; eapply rcs_valid; eauto).
    destruct (box_sorted m ix r0 r1 c0 c1 CM BR) as [SO FO]. pose proof (rcs_entry m ix gi rc CM X) as N.
    apply (map_nth_error (fun rc => (fst rc - r0) * (c1 - c0 + 1) + (snd rc - c0))) in N. pose proof (sorted_place _ 0 _ _ SO FO N) as SP.
    destruct X as (_ & GB & _). clear - SP GB. lia.
  - intros row col IB NV LT. eexists. split; [exact P|]. eapply index_behind; eauto.
Qed.
Print Assumptions C126_indices_refuted.

(** ** C127. A copied subset has the raster's number of layers beside the mask
    subset's data: with fewer layers of data, writing it out reads outside. *)
Lemma short_layers {T M D} (conv : D -> T) (m : raster M) (s : subset D) cs d2 lyrs nodata : describes m s cs -> data_fits s -> s_data2 s = Some d2 -> s_lyrs s < lyrs ->
  Output (fun x => Ok (conv x)) nodata (relayered lyrs s) = UB.
Proof.
  intros (g & lp & li & (S1 & S2 & S3 & S4 & S5 & S6) & F & _ & _ & TI) [_ FIT] E2 LT.
  destruct (FIT d2 E2) as (L1 & LD & LR). apply (output_short conv nodata (relayered lyrs s) li d2) with (k := s_lyrs s);
    cbn [relayered s_lidx s_n s_data2 s_lyrs]; auto; try lia.
  apply tight_ne in TI. apply Forall2_length in F. destruct cs; [congruence|]. cbn [length] in F. lia.
Qed.
Theorem C127_layers_refuted : forall (T M D : Type) (feq : T -> T -> bool) (feqM : M -> M -> bool) (m : raster M) (r : raster T) ord ix
    (msubs rsubs : list (Z * subset D)) cells,
  compact m ix -> mask_order feqM m ord -> loaded r -> r_init r = true -> (0 < r_cs r)%Q -> (0 < r_cs m)%Q -> quiet feq feqM r m ->
  feq (r_nodata r) (r_nodata r) = true -> touches feqM r m -> mask_subsets m msubs cells -> header_known (geo_of m) ->
  r_maskext r = true \/ match_box feq feqM r m 0 (r_rows m - 1) 0 (r_cols m - 1) ->
  r_calc r = false \/ (forall row col, mask_valid feqM m row col -> matches feq r m row col) ->
  exists r' subs', MaskAndCalcSubs feq feqM ord m msubs r rsubs = Ok (r', m, true, 2, subs') /\
    forall k s rc, In (k, s) msubs -> In rc (cells k) -> valued feq r m rc -> s_data2 s <> None -> s_lyrs s < r_nlyrs r ->
      exists s', In (k, s') subs' /\ forall (conv : D -> T) nodata, Output (fun x => Ok (conv x)) nodata s' = UB.
Proof.
  intros T M D feq feqM m r ord ix msubs rsubs cells CM O L IN SR SM Q ND TO MS HK EXT CA.
  destruct (way_borrow feq feqM m r ord ix msubs rsubs cells CM O L IN SR SM Q ND TO MS HK EXT CA) as (r' & subs' & E & _ & CH & _).
  exists r', subs'. split; [exact E|]. intros k s rc I IR V D2 LT. exists (relayered (r_nlyrs r) s). split.
  - destruct (chosen_In _ _ _ _ CH) as [_ CI]. destruct (CI (k, s) I) as (ks' & J & R); [exists rc; auto|]. rewrite R in J. exact J.
  - intros conv nodata. destruct MS as [_ H]. destruct (H k s I) as [DS DF]. destruct (s_data2 s) as [d2|] eqn:E2; [|congruence]. eapply short_layers; eauto.
Qed.
Print Assumptions C127_layers_refuted.

(** ** Concrete cases *)

(** A 3x3 mask of zones 7, 2 and 5 without its centre, and its three subsets. *)
Definition zones (d : list Z) : raster Z :=
  let z := FromArray (Some d) 3 3 nd nd 10 100 190 in
  match SetCalcPositions Z.eqb (seq 0 (length (filter (fun v => negb (Z.eqb v nd)) d))) z with Ok (r, _) => r | _ => z end.
Definition zsubs (m : raster Z) : list (Z * subset Z) :=
  match BuildSubSet Z.eqb Some [] m [] [] with Ok (_, subs, _) => subs | _ => [] end.
Definition mz := zones [7; 7; 2; 7; nd; 2; 5; 5; 7].
Definition zcells (k : Z) : list (Z * Z) :=
  if k =? 7 then [(0, 0); (0, 1); (1, 0); (2, 2)] else if k =? 2 then [(0, 2); (1, 2)] else [(2, 0); (2, 1)].
Ltac compactz := unfold compact; vm_compute; split; [reflexivity|]; split; [reflexivity|]; split; [discriminate|]; split; [reflexivity|];
  split; [reflexivity|]; split; [split; [reflexivity|]; eexists; split; reflexivity|]; split; [reflexivity|]; split; [reflexivity|];
  split; [reflexivity|]; split; repeat constructor; discriminate.
Lemma mz_compact : compact mz [0; 1; 2; 3; 5; 6; 7; 8]. Proof. compactz. Qed.
Ltac subsetsz C := match goal with |- mask_subsets _ ?l _ =>
  let l' := eval vm_compute in l in let H := fresh in assert (H : l = l') by (vm_compute; reflexivity); rewrite H; clear H;
  split; [discriminate|]; intros k s I; cbn [In] in I;
  repeat (destruct I as [I|I]; [injection I as <- <-; split; [apply (describes_check _ _ _ _ C); vm_compute; reflexivity|split; intros d X; discriminate]|]); destruct I end.
Lemma mz_subsets : mask_subsets mz (zsubs mz) zcells. Proof. subsetsz mz_compact. Qed.
Lemma mz_order : mask_order Z.eqb mz mord.
Proof. intros n E. vm_compute in E. discriminate. Qed.
Ltac validz C := apply (valid_iff Z.eqb _ _ _ _ C); vm_compute; tauto.
Lemma mz_touches e c : touches Z.eqb (src0 e c) mz.
Proof. exists 0, 1. split; [validz mz_compact|]. vm_compute. intros [H|[H|[H|H]]]; discriminate. Qed.
Lemma mz_known : header_known (geo_of mz). Proof. split; left; vm_compute; discriminate. Qed.
Lemma mz_box e c : match_box Z.eqb Z.eqb (src0 e c) mz 0 1 0 2.
Proof. apply (box_check Z.eqb Z.eqb mz (src0 e c) _ 0 1 0 2 mz_compact (src0_loaded e c)); [reflexivity|reflexivity|destruct e, c; vm_compute; reflexivity]. Qed.

Example C123_built_ex : exists cells, mask_subsets mz (zsubs mz) cells /\ (forall rc, In rc (cells 2) <-> exists vi, in_group Z.eqb Some mz [] 2 vi /\ indexes mz vi rc).
Proof.
  destruct (C123_built Z Z Z.eqb Some mz _ [] [] (zsubs mz) mz_compact) as (cells & MS & I); [intros vi v _ _ _; discriminate|vm_compute; reflexivity|vm_compute; discriminate|].
  exists cells. split; [exact MS|]. intros rc. assert (J : exists s, In (2, s) (zsubs mz)) by (eexists; vm_compute; left; reflexivity).
  destruct J as (s & J). exact (I 2 s rc J).
Qed.

Example C123_own_ex : exists m', MaskAndCalcSubs Z.eqb Z.eqb mord mz (zsubs mz) (source [1; 2] 2 1 nd 5000 5000 true false) (zsubs mz)
  = Ok (source [1; 2] 2 1 nd 5000 5000 true false, m', true, -1, zsubs mz).
Proof. eexists. vm_compute. reflexivity. Qed.

(** Zone 5 lies below the source and is dropped. *)
Definition ids {A} (x : outcome (A * list (Z * subset Z))) : list (Z * option (list Z) * (Z * Z * Z * Z)) :=
  match x with Ok (_, l) => map (fun ks => (fst ks, s_global (snd ks), (s_srow (snd ks), s_erow (snd ks), s_scol (snd ks), s_ecol (snd ks)))) l | _ => [] end.
Definition run e c := MaskAndCalcSubs Z.eqb Z.eqb mord mz (zsubs mz) (src0 e c) [].
Example C123_kept_ex : (exists r' subs', run true false = Ok (r', mz, true, 2, subs') /\ (forall k s', In (k, s') subs' -> describes r' s' (zcells k))) /\
  ids (run true false) = [(2, Some [2; 4], (0, 1, 2, 2)); (7, Some [0; 1; 3; 7], (0, 2, 0, 2))].
Proof.
  split; [|vm_compute; reflexivity].
  destruct (C123_kept Z Z Z Z.eqb Z.eqb mz (src0 true false) mord _ (zsubs mz) [] zcells mz_compact mz_order (src0_loaded _ _) eq_refl eq_refl eq_refl
    (or_introl eq_refl) eq_refl (mz_touches _ _) mz_subsets mz_known (or_introl eq_refl) (or_introl eq_refl)) as (r' & subs' & E & _ & _ & DS & _).
  exists r', subs'. auto.
Qed.

(** Zone 7 holds the last cell of the mask, number 7; the masked raster has four cells. *)
Example C124_ex : (exists r' subs', run true true = Ok (r', mz, false, 2, subs') /\ r_ncells r' < r_ncells mz) /\
  ids (run true true) = [(2, Some [2; 4], (0, 1, 2, 2)); (7, Some [0; 1; 3; 7], (0, 2, 0, 2))] /\
  match run true true with Ok (r', _, _, _, _) => r_ncells r' | _ => 0 end = 4.
Proof.
  split; [|split; vm_compute; reflexivity].
  destruct (C124_stale_refuted Z Z Z Z.eqb Z.eqb mz (src0 true true) mord _ (zsubs mz) [] zcells 0 1 0 2 mz_compact mz_order (src0_loaded _ _) eq_refl eq_refl eq_refl
    (or_introl eq_refl) eq_refl (mz_touches _ _) mz_subsets mz_known (mz_box _ _) (or_introl eq_refl) eq_refl) as (r' & subs' & E & LT & _).
  - exists 2, 0. split; [validz mz_compact|]. intros (_ & [B _] & _). lia.
  - exists r', subs'. auto.
Qed.

(** Trimmed to two rows: zone 5 goes, zone 7 loses (0,0) and (2,2). *)
Lemma mz_unmatched e c : exists row col, mask_valid Z.eqb mz row col /\ ~ matches Z.eqb (src0 e c) mz row col.
Proof.
  exists 0, 0. split; [validz mz_compact|]. intros M0. apply (matches_hit Z.eqb (src0 e c) mz 0 0 (src0_loaded e c)) in M0; [|reflexivity|reflexivity].
  destruct e, c; vm_compute in M0; discriminate.
Qed.
Example C125_ex : (exists r' subs', run false true = Ok (r', mz, false, 2, subs') /\ r_rows r' = 2) /\
  ids (run false true) = [(2, Some [1; 3], (0, 1, 2, 2)); (7, Some [0; 2], (0, 1, 0, 1))].
Proof.
  split; [|vm_compute; reflexivity].
  destruct (C125_rebuilt Z Z Z Z.eqb Z.eqb mz (src0 false true) mord _ (zsubs mz) [] zcells 0 1 0 2 mz_compact mz_order (src0_loaded _ _) eq_refl eq_refl eq_refl
    (or_introl eq_refl) eq_refl (mz_touches _ _) mz_subsets) as (r' & subs' & E & G & _); try reflexivity.
  - split; left; vm_compute; discriminate.
  - apply mz_box.
  - intros [X _]. vm_compute in X. discriminate.
  - left. reflexivity.
  - apply mz_unmatched.
  - exists r', subs'. split; [exact E|]. exact (f_equal g_rows G).
Qed.
(** The same without positions, from a source of another size. *)
Definition src1 c := source [nd; 12; 13; 21; 22; 23; nd; nd; nd] 3 3 nd 100 190 false c.
Example C125_full_ex : ids (MaskAndCalcSubs Z.eqb Z.eqb mord mz (zsubs mz) (src1 false) []) = [(2, Some [2; 5], (0, 1, 2, 2)); (7, Some [1; 3], (0, 1, 0, 1))].
Proof. vm_compute. reflexivity. Qed.

(** All three cells of this mask match; its first row is trimmed. *)
Definition me := zones [nd; nd; nd; nd; 7; nd; 7; nd; 2].
Definition ecells (k : Z) : list (Z * Z) := if k =? 7 then [(1, 1); (2, 0)] else [(2, 2)].
Definition src2 c := source [11; 12; 13; 21; 22; 23; 31; 32; 33] 3 3 nd 100 190 false c.
Lemma me_compact : compact me [4; 6; 8]. Proof. compactz. Qed.
Lemma me_subsets : mask_subsets me (zsubs me) ecells. Proof. subsetsz me_compact. Qed.
Lemma me_order : mask_order Z.eqb me []. Proof. intros n E. vm_compute in E. discriminate. Qed.
Lemma me_touches c : touches Z.eqb (src2 c) me.
Proof. exists 1, 1. split; [validz me_compact|]. vm_compute. intros [H|[H|[H|H]]]; discriminate. Qed.
Lemma src2_loaded c : loaded (src2 c). Proof. apply source_loaded; reflexivity. Qed.
Lemma me_box c : match_box Z.eqb Z.eqb (src2 c) me 1 2 0 2.
Proof. apply (box_check Z.eqb Z.eqb me (src2 c) _ 1 2 0 2 me_compact (src2_loaded c)); [reflexivity|reflexivity|destruct c; vm_compute; reflexivity]. Qed.
Lemma me_all c : forall row col, mask_valid Z.eqb me row col -> matches Z.eqb (src2 c) me row col.
Proof.
  intros row col V. apply (matches_hit Z.eqb (src2 c) me row col (src2_loaded c)); [reflexivity|reflexivity|].
  apply (valid_iff Z.eqb me _ row col me_compact) in V. vm_compute in V. destruct V as [V|[V|[V|[]]]]; injection V as <- <-; destruct c; vm_compute; reflexivity.
Qed.
Example C126_windows_ex : (exists r', MaskAndCalcSubs Z.eqb Z.eqb [] me (zsubs me) (src2 true) [] = Ok (r', me, false, 2, map (fun ks => (fst ks, relayered 1 (snd ks))) (zsubs me)) /\
  (forall k s, In (k, s) (zsubs me) -> ~ describes r' (relayered 1 s) (map (fun rc => (fst rc - 1, snd rc - 0)) (ecells k)))) /\
  ids (MaskAndCalcSubs Z.eqb Z.eqb [] me (zsubs me) (src2 true) []) = [(2, Some [2], (2, 2, 2, 2)); (7, Some [0; 1], (1, 2, 0, 1))].
Proof.
  split; [|vm_compute; reflexivity].
  destruct (C126_windows_refuted Z Z Z Z.eqb Z.eqb me (src2 true) [] _ (zsubs me) [] ecells 1 2 0 2 me_compact me_order (src2_loaded _) eq_refl eq_refl eq_refl
    (or_introl eq_refl) eq_refl (me_touches _) me_subsets) as (r' & E & H); try reflexivity.
  - split; left; vm_compute; discriminate.
  - apply me_box.
  - intros [X _]. vm_compute in X. discriminate.
  - apply me_all.
  - exists r'. split; [exact E|]. intros k s I. destruct (H k s I) as (_ & _ & X). intros Y. apply X in Y. destruct Y. discriminate.
Qed.
Example C126_indices_ex : (exists r', MaskAndCalcSubs Z.eqb Z.eqb [] me (zsubs me) (src2 false) [] = Ok (r', me, false, 2, map (fun ks => (fst ks, relayered 1 (snd ks))) (zsubs me))) /\
  ids (MaskAndCalcSubs Z.eqb Z.eqb [] me (zsubs me) (src2 false) []) = [(2, Some [2], (2, 2, 2, 2)); (7, Some [0; 1], (1, 2, 0, 1))] /\
  match MaskAndCalcSubs Z.eqb Z.eqb [] me (zsubs me) (src2 false) [] with
  | Ok (r', _, _, _, _) => (GetPosition r' 1 2, GetValueByIndex r' 2 1) | _ => (UB, UB) end = (Ok 5, Ok nd).
Proof.
  split; [|split; vm_compute; reflexivity].
  destruct (C126_indices_refuted Z Z Z Z.eqb Z.eqb me (src2 false) [] _ (zsubs me) [] ecells 1 2 0 2 me_compact me_order (src2_loaded _) eq_refl eq_refl eq_refl
    (or_introl eq_refl) eq_refl (me_touches _) me_subsets) as (r' & E & _); try reflexivity.
  - split; left; vm_compute; discriminate.
  - apply me_box.
  - intros [X _]. vm_compute in X. discriminate.
  - vm_compute. discriminate.
  - vm_compute. discriminate.
  - apply me_all.
  - exists r'. exact E.
Qed.

(** One layer of data in the subsets, two layers in the raster. *)
Definition src3 : raster Z := mkRaster 3 3 100 190 10 nd 9 2 9 2 nd nd true None (Some (map (fun v => [v; v + 100]) [11; 12; 13; 21; 22; 23; 31; 32; 33])) None None false false true true.
Definition lsubs : list (Z * subset Z) := map (fun ks => (fst ks, set_sdata (snd ks) 1 None (Some (repeat [5] (Z.to_nat (s_n (snd ks))))) true)) (zsubs me).
Lemma src3_loaded : loaded src3.
Proof. unfold loaded, storage. cbn. repeat split; try lia. eexists. split; [reflexivity|]. split; [reflexivity|]. repeat constructor. Qed.
Lemma lsubs_ok : mask_subsets me lsubs ecells.
Proof.
  match goal with |- mask_subsets _ ?l _ => let l' := eval vm_compute in l in assert (H : l = l') by (vm_compute; reflexivity); rewrite H; clear H end.
  split; [discriminate|]. intros k s I. cbn [In] in I.
  repeat (destruct I as [I|I]; [injection I as <- <-; split; [apply (describes_check _ _ _ _ me_compact); vm_compute; reflexivity|
    split; intros d X; [discriminate|injection X as <-; split; [vm_compute; discriminate|split; [reflexivity|repeat constructor]]]]|]). destruct I.
Qed.
Example C127_ex : exists r' subs' s', MaskAndCalcSubs Z.eqb Z.eqb [] me lsubs src3 [] = Ok (r', me, true, 2, subs') /\ In (7, s') subs' /\
  Output (fun x : Z => Ok x) nd s' = UB.
Proof.
  destruct (C127_layers_refuted Z Z Z Z.eqb Z.eqb me src3 [] _ lsubs [] ecells me_compact me_order src3_loaded eq_refl eq_refl eq_refl
    (or_introl eq_refl) eq_refl) as (r' & subs' & E & H).
  - exists 1, 1. split; [validz me_compact|]. vm_compute. intros [H|[H|[H|H]]]; discriminate.
  - exact lsubs_ok.
  - split; left; vm_compute; discriminate.
  - left. reflexivity.
  - left. reflexivity.
  - assert (J : exists s, In (7, s) lsubs /\ s_data2 s <> None /\ s_lyrs s < r_nlyrs src3).
    { eexists. split; [vm_compute; right; left; reflexivity|]. split; [discriminate|reflexivity]. }
    destruct J as (s & I & D2 & LT). destruct (H 7 s (1, 1) I) as (s' & I' & O); [left; reflexivity| |exact D2|exact LT|].
    + exists 22. split; [|reflexivity]. exists (At 1 1). split; [vm_compute; repeat split; discriminate|]. exists 22. split; reflexivity.
    + exists r', subs', s'. split; [exact E|]. split; [exact I'|]. apply (O (fun x => x)).
Qed.
