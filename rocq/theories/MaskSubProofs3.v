(** Masks with subsets: the ways to finish. *)
From Coq Require Import ZArith QArith List Bool Lia Lqa ZifyBool Sorted.
From Verif Require Import Base RasterModel RasterSpec RasterProofs RasterProofs2 RasterProofs3 ListLib CoordModel CoordSpec CoordProofs
  MaskModel MaskSpec SubsetModel SubsetSpec SubsetProofs MaskProofs MaskProofs2 MaskProofs3 MaskProofs4 MaskProofs5 MaskSubModel MaskSubSpec
  MaskSubProofs MaskSubProofs2.
Import ListNotations.
Open Scope Z_scope.
Open Scope outcome_scope.

(** Two rasters with the same grid and the same stored cells use the same indices. *)
Lemma indexes_same {T1 T2} (x : raster T1) (y : raster T2) ix gi rc : compact x ix -> compact y ix -> r_rows x = r_rows y -> r_cols x = r_cols y ->
  indexes x gi rc -> indexes y gi rc.
Proof.
  intros CX CY ER EC (I & B & P & _). assert (IY : inside y (fst rc) (snd rc)) by (unfold inside in *; rewrite <- ER, <- EC; exact I).
  destruct (GetPosition_compact x ix _ _ CX I) as [(g & P' & _ & N)|(P' & _)]; rewrite P in P'; injection P' as EP; [subst g|clear - B EP; lia].
  destruct (cell_cases y _ _ (or_introl (ex_intro _ ix CY)) IY) as [(g & IX & NU)|(P' & _)].
  - assert (g = gi); [|subst g; rewrite <- surjective_pairing in IX; exact IX].
    unfold number in NU. pose proof CY as (_&_&_&_&NC&_&_&PI&PO&SO&_). rewrite PO, PI in NU. cbn [isnull orb deref obind] in NU. apply aget_inv in NU.
    destruct NU as [G0 NU]. rewrite EC in N. clear - SO N NU G0 B.
    destruct (Nat.lt_trichotomy (Z.to_nat g) (Z.to_nat gi)) as [H|[H|H]]; [|lia|].
    + pose proof (sorted_nth_lt _ _ _ _ _ SO NU N H). lia.
    + pose proof (sorted_nth_lt _ _ _ _ _ SO N NU H). lia.
  - exfalso. destruct (GetPosition_compact y ix _ _ CY IY) as [(g & P2 & B2 & _)|(_ & NI)]; [rewrite P' in P2; injection P2 as EP; clear - B2 EP; lia|].
    apply NI. rewrite <- EC. eapply nth_error_In; eauto.
Qed.

Lemma compact_valid {M} (feqM : M -> M -> bool) (m : raster M) ix gi rc : compact m ix -> indexes m gi rc -> mask_valid feqM m (fst rc) (snd rc).
Proof.
  intros C (I & B & P & _). split; [exact I|]. left. exists ix. split; [exact C|].
  destruct (GetPosition_compact m ix _ _ C I) as [(g & P' & _ & N)|(P' & _)]; rewrite P in P'; injection P' as EP; [subst g|clear - B EP; lia]. eapply nth_error_In; eauto.
Qed.

Lemma describes_valid {M D} (feqM : M -> M -> bool) (m : raster M) ix (s : subset D) cs rc : compact m ix -> describes m s cs -> In rc cs -> mask_valid feqM m (fst rc) (snd rc).
Proof.
  intros C (g & lp & li & _ & F & _) I. clear - C F I. induction F as [|gi x gl cl H F IH]; [destruct I|]. destruct I as [<-|I]; [eapply compact_valid; eauto|apply IH, I].
Qed.

Lemma describes_same {T1 T2 D} (x : raster T1) (y : raster T2) ix (s : subset D) cs lyrs : compact x ix -> compact y ix -> r_rows x = r_rows y -> r_cols x = r_cols y ->
  describes x s cs -> describes y (relayered lyrs s) cs.
Proof.
  intros CX CY ER EC (g & lp & li & S & F & R). exists g, lp, li. split; [exact S|]. split; [|exact R].
  clear - CX CY ER EC F. induction F as [|gi rc gl cl H F IH]; [constructor|]. constructor; [exact (indexes_same x y ix gi rc CX CY ER EC H)|exact IH].
Qed.

Section Ways.
Context {T M D : Type}.
Variable feq : T -> T -> bool.
Variable feqM : M -> M -> bool.
Variables (m : raster M) (r : raster T) (ord : list nat) (ix : list Z).
Variables (msubs rsubs : list (Z * subset D)) (cells : Z -> list (Z * Z)).
Hypothesis CM : compact m ix.
Hypothesis O : mask_order feqM m ord.
Hypothesis L : loaded r.
Hypothesis IN : r_init r = true.
Hypothesis SR : (0 < r_cs r)%Q.
Hypothesis SM : (0 < r_cs m)%Q.
Hypothesis Q : quiet feq feqM r m.
Hypothesis ND : feq (r_nodata r) (r_nodata r) = true.
Hypothesis TO : touches feqM r m.
Hypothesis MS : mask_subsets m msubs cells.

Let W : wf m. Proof. right. left. exists ix. exact CM. Qed.

Lemma cells_valid k s rc : In (k, s) msubs -> In rc (cells k) -> mask_valid feqM m (fst rc) (snd rc).
Proof. intros I J. destruct MS as [_ H]. destruct (H k s I) as [DS _]. eapply describes_valid; eauto. Qed.

Lemma scan_init st : scanned feq m r (rcs m ix) st -> r_init (k_r st) = true.
Proof. intros (FR & _). unfold same_frame in FR. rewrite FR. exact IN. Qed.

Lemma same_centres (r5 : raster T) : geo_of r5 = geo_of m -> forall row col,
  (fst (centre r5 (row - 0) (col - 0)) == fst (centre m row col) /\ snd (centre r5 (row - 0) (col - 0)) == snd (centre m row col))%Q.
Proof.
  clear. intros G row col. rewrite !Z.sub_0_r. injection G as G1 G2 G3 G4 G5. unfold centre. rewrite G1, G3, G4, G5. split; reflexivity.
Qed.

Lemma sees_total row col lyr : exists v, sees feq r m row col lyr v.
Proof. eexists. apply ev_sees; [exact L|exact SR|reflexivity]. Qed.

Lemma sees_one row col lyr v v' : sees feq r m row col lyr v -> sees feq r m row col lyr v' -> v = v'.
Proof. intros H1 H2. apply ev_sees in H1, H2; auto. congruence. Qed.

(** Positions borrowed from the mask. *)
Lemma way_borrow : header_known (geo_of m) ->
  r_maskext r = true \/ match_box feq feqM r m 0 (r_rows m - 1) 0 (r_cols m - 1) ->
  r_calc r = false \/ (forall row col, mask_valid feqM m row col -> matches feq r m row col) ->
  exists r' subs', MaskAndCalcSubs feq feqM ord m msubs r rsubs = Ok (r', m, true, 2, subs') /\ geo_of r' = geo_of m /\
    chosen (fun ks => exists rc, In rc (cells (fst ks)) /\ valued feq r m rc) (fun ks ks' => ks' = (fst ks, relayered (r_nlyrs r) (snd ks))) msubs subs' /\
    (forall k s', In (k, s') subs' -> describes r' s' (cells k)) /\
    (forall row col lyr v, mask_valid feqM m row col -> layer_ok r lyr -> sees feq r m row col lyr v -> GetValue r' row col lyr = Ok v).
Proof.
  intros HK EXT CALC. destruct (run_compact feq feqM m r ord ix CM O L SR SM TO) as (st & SC & RD & SD & NX & E). cbv zeta in E.
  set (e := k_matched st =? Z.of_nat (length ix)) in *. set (w := within_of m st) in *.
  assert (WE : w || r_maskext r = true).
  { destruct EXT as [->|MB]; [apply orb_true_r|].
    destruct (box_of feq feqM m r W L SR m ix st _ _ _ _ RD SD Q ND MB) as (Q1 & Q2 & Q3 & Q4 & _).
    unfold w, within_of. rewrite Q1, Q2, Q3, Q4. clear. lia. }
  assert (CE : r_calc r && negb e = false).
  { destruct CALC as [->|ALL]; [reflexivity|]. unfold e. rewrite (proj2 (exact_iff feq feqM m r m ix st W L SR RD SD Q ND) ALL). apply andb_false_r. }
  assert (RC : rowcol_flag w (r_maskext r) = false) by (unfold rowcol_flag; destruct w, (r_maskext r); auto; discriminate).
  unfold recalc_flag, calc_flag in E. rewrite WE, CE, RC in E.
  assert (FF : fullsize_flag w (r_maskext r) (r_calc r) = false) by (unfold fullsize_flag; destruct w, (r_maskext r); auto; discriminate). rewrite FF in E.
  edestruct (finish_borrow feq feqM m m ix r st (r_rows r * r_cols r) ord L RD SD NX) as (r5 & E5 & C5 & G5 & L5 & N5 & V5).
  rewrite E5 in E. pose proof (finish_init _ _ _ _ _ _ _ _ _ _ _ _ _ _ _ E5) as I5. rewrite (scan_init st SD) in I5.
  assert (CL : clean feq m r (rcs m ix)) by (eapply clean_of; eauto).
  destruct (borrow_values feq feqM m r W L SR m ix st r5 RD SD CL C5 G5 L5 N5 V5) as [A B].
  pose proof G5 as G5'. injection G5' as G1 G2 G3 G4 G6.
  destruct (subs_kept feq m r ix CM r5 0 0 msubs cells) as (subs' & ES & CH); auto.
  { left. exists ix. exact C5. } { rewrite G6. exact SM. } { rewrite G5. exact HK. } { rewrite N5. exact ND. } { apply same_centres. exact G5. }
  rewrite (subs_call feq feqM m r ord ix CM st r5 m true msubs rsubs cells SC E MS). fold w. rewrite RC, andb_false_r, ES. cbn [obind].
  exists r5, subs'. split; [reflexivity|]. split; [exact G5|].
  assert (SV : forall k s rc, In (k, s) msubs -> In rc (cells k) -> (shown feq r5 (moved 0 0 rc) <-> valued feq r m rc)).
  { intros k s rc I J. pose proof (cells_valid k s rc I J) as V. unfold moved. rewrite !Z.sub_0_r. unfold shown, valued. cbn [fst snd]. rewrite N5.
    destruct (sees_total (fst rc) (snd rc) 1) as (v & S). assert (LO : layer_ok r 1) by (destruct L as (_&_&X&_); split; clear - X; lia).
    rewrite (A _ _ 1 v V LO S). split; intros (v' & H1 & H2).
    - injection H1 as <-. exists v. auto.
    - rewrite (sees_one _ _ _ _ _ H1 S) in H2. exists v. auto. }
  split.
  { eapply chosen_imp; [| |exact CH].
    - intros [k s] I. cbn [fst]. split; intros (rc & J & H); exists rc; (split; [exact J|]); eapply SV; eauto.
    - auto. }
  split; [|exact A].
  intros k s' I. destruct (chosen_In _ _ _ _ CH) as [CI _]. destruct (CI _ I) as ([k' s] & J & _ & R). injection R as -> ->.
  destruct MS as [_ H]. destruct (H k' s J) as [DS _]. apply (describes_same m r5 ix); auto.
Qed.

(** Positions of its own under the mask's header. *)
Lemma way_shifted r0 r1 c0 c1 : header_known (geo_of m) -> match_box feq feqM r m r0 r1 c0 c1 ->
  r_maskext r = true \/ (r0 = 0 /\ r1 = r_rows m - 1 /\ c0 = 0 /\ c1 = r_cols m - 1) -> r_calc r = true ->
  (exists row col, mask_valid feqM m row col /\ ~ kept_cell feq feqM r m r0 r1 c0 c1 row col) ->
  exists r' subs', MaskAndCalcSubs feq feqM ord m msubs r rsubs = Ok (r', m, false, 2, subs') /\ geo_of r' = geo_of m /\
    chosen (fun ks => exists rc, In rc (cells (fst ks)) /\ kept_cell feq feqM r m r0 r1 c0 c1 (fst rc + r0) (snd rc + c0))
      (fun ks ks' => ks' = (fst ks, relayered (r_nlyrs r) (snd ks))) msubs subs' /\
    r_ncells r' < r_ncells m /\ (exists ix', compact r' ix').
Proof.
  intros HK MB EXT CA NA. destruct (run_compact feq feqM m r ord ix CM O L SR SM TO) as (st & SC & RD & SD & NX & E). cbv zeta in E.
  set (e := k_matched st =? Z.of_nat (length ix)) in *. set (w := within_of m st) in *.
  destruct (box_of feq feqM m r W L SR m ix st r0 r1 c0 c1 RD SD Q ND MB) as (Q1 & Q2 & Q3 & Q4 & BX).
  assert (CL : clean feq m r (rcs m ix)) by (eapply clean_of; eauto).
  destruct (kept_iff feq feqM m r L SR m ix st r0 r1 c0 c1 RD SD CL Q1 Q2 Q3 Q4) as [KE KI].
  assert (KN : kept feq r st <> []).
  { destruct (match_kept feq feqM m r r0 r1 c0 c1 MB) as (a & b & KC). apply KI in KC. rewrite KE. intros X. apply map_eq_nil in X. rewrite X in KC. destruct KC. }
  assert (WE : w || r_maskext r = true).
  { destruct EXT as [->|(-> & -> & -> & ->)]; [apply orb_true_r|]. unfold w, within_of. rewrite Q1, Q2, Q3, Q4. clear. lia. }
  assert (EX : e = false).
  { apply not_true_is_false. intros X. destruct NA as (a & b & V & N). apply N.
    pose proof (proj1 (exact_iff feq feqM m r m ix st W L SR RD SD Q ND) X a b V) as MA.
    destruct MB as (BB & _). split; [exact V|]. split; [apply BB; assumption|]. destruct MA as (i & j & v & LI & GV & F). exists v. split; [|exact F].
    exists (At i j). split; [exact LI|]. exists v. split; [exact GV|]. unfold replaced. rewrite F. reflexivity. }
  assert (RC : rowcol_flag w (r_maskext r) = false) by (unfold rowcol_flag; destruct w, (r_maskext r); auto; discriminate).
  assert (FF : fullsize_flag w (r_maskext r) (r_calc r) = false) by (unfold fullsize_flag; rewrite CA; apply andb_false_r).
  unfold recalc_flag, calc_flag in E. rewrite WE, CA, EX, RC in E. rewrite CA in FF. rewrite FF in E. cbn [andb negb] in E.
  edestruct (finish_recalc feq feqM m m ix r st (r_rows r * r_cols r) ord L RD SD NX false) as (r5 & E5 & C5 & G5 & L5 & N5 & V5); [exact BX|exact KN|].
  rewrite E5 in E. cbv zeta in C5, G5. change (geo_of r5 = geo_of m) in G5. pose proof (finish_init _ _ _ _ _ _ _ _ _ _ _ _ _ _ _ E5) as I5. rewrite (scan_init st SD) in I5.
  pose proof G5 as G5'. injection G5' as G1 G2 G3 G4 G6. unfold matched_box in BX. rewrite Q1, Q2, Q3, Q4 in BX.
  destruct (recalc_values feq feqM m r L SR m ix st r5 (r_cols m) r0 r1 c0 c1 RD SD CL Q1 Q2 Q3 Q4 G2) as [A B]; auto; rewrite ?G1; try (clear - BX; lia).
  destruct (subs_kept feq m r ix CM r5 0 0 msubs cells) as (subs' & ES & CH); auto.
  { left. eexists. exact C5. } { rewrite G6. exact SM. } { rewrite G5. exact HK. } { rewrite N5. exact ND. } { apply same_centres. exact G5. }
  rewrite (subs_call feq feqM m r ord ix CM st r5 m false msubs rsubs cells SC E MS). fold w. rewrite RC, andb_false_r, ES. cbn [obind].
  exists r5, subs'. split; [reflexivity|]. split; [exact G5|]. split.
  { eapply chosen_imp; [| |exact CH]; [|auto]. intros [k s] I. cbn [fst].
    assert (LO : layer_ok r 1) by (destruct L as (_&_&X&_); split; clear - X; lia).
    assert (SV : forall rc, shown feq r5 (moved 0 0 rc) <-> kept_cell feq feqM r m r0 r1 c0 c1 (fst rc + r0) (snd rc + c0)).
    { intros [a b]. unfold moved, shown. cbn [fst snd]. rewrite !Z.sub_0_r, N5. 
      destruct (In_dec (fun x y : Z * Z => ltac:(decide equality; apply Z.eq_dec)) (a + r0, b + c0) (filter (fun rc => keepb feq r st (seen feq m r rc)) (rcs m ix))) as [X|X].
      - apply KI in X. split; [intros _; exact X|]. intros _. pose proof X as (_ & _ & v & S & F). exists v. split; [|exact F].
        pose proof (A _ _ 1 v X LO S) as R. replace (a + r0 - r0) with a in R by (clear; lia). replace (b + c0 - c0) with b in R by (clear; lia). exact R.
      - assert (X' : ~ kept_cell feq feqM r m r0 r1 c0 c1 (a + r0) (b + c0)) by (intros X'; apply X, KI, X'). split; [|intros; contradiction].
        intros (v & H & F). rewrite (B _ _ 1 X') in H. injection H as <-. congruence. }
    split; intros (rc & J & H); exists rc; (split; [exact J|]); apply SV; exact H. }
  split; [|eexists; exact C5].
  pose proof C5 as (_&_&_&_&NC&_). pose proof CM as (_&_&_&_&NM&_). rewrite NC, NM, map_length, KE, map_length.
  assert (LL : length ix = length (rcs m ix)) by (unfold rcs; rewrite map_length; reflexivity). rewrite LL.
  destruct NA as (a & b & V & N). pose proof RD as (_&_&_&VAL&_). apply VAL in V.
  pose proof (filter_length_le (fun rc => keepb feq r st (seen feq m r rc)) (rcs m ix)) as LE.
  assert (NEQ : length (filter (fun rc => keepb feq r st (seen feq m r rc)) (rcs m ix)) <> length (rcs m ix)); [|clear - LE NEQ; lia].
  intros X. rewrite filter_all in X. apply N. apply KI. apply filter_In. split; [exact V|]. apply X. exact V.
Qed.

(** Trimmed to the rectangle of the matches. *)
Lemma trimmed_centres (r5 : raster T) r0 r1 c0 c1 : geo_of r5 = mkGeo (r1 - r0 + 1) (c1 - c0 + 1) (r_xll m + inject_Z c0 * r_cs m)%Q (r_yll m + inject_Z (r_rows m - r1 - 1) * r_cs m)%Q (r_cs m) ->
  forall row col, (fst (centre r5 (row - r0) (col - c0)) == fst (centre m row col) /\ snd (centre r5 (row - r0) (col - c0)) == snd (centre m row col))%Q.
Proof.
  clear. intros G row col. injection G as G1 G2 G3 G4 G6. unfold centre. rewrite G1, G6, G3, G4. cbn [fst snd]. unfold Z.sub. repeat (rewrite inject_Z_plus || rewrite inject_Z_opp).
  change (inject_Z 1) with 1%Q. split; ring.
Qed.

Definition window_known r0 r1 c0 c1 : Prop :=
  header_known (mkGeo (r1 - r0 + 1) (c1 - c0 + 1) (fst (centre m r1 c0)) (snd (centre m r1 c0)) (r_cs m)).

(** What the masked raster looks like when it is trimmed. *)
Definition trimmed (r5 : raster T) r0 r1 c0 c1 : Prop :=
  usable r5 /\ r_init r5 = true /\ r_nodata r5 = r_nodata r /\ r_nlyrs r5 = r_nlyrs r /\
  geo_of r5 = mkGeo (r1 - r0 + 1) (c1 - c0 + 1) (r_xll m + inject_Z c0 * r_cs m)%Q (r_yll m + inject_Z (r_rows m - r1 - 1) * r_cs m)%Q (r_cs m) /\
  (forall rc, mask_valid feqM m (fst rc) (snd rc) -> (shown feq r5 (moved r0 c0 rc) <-> kept_cell feq feqM r m r0 r1 c0 c1 (fst rc) (snd rc))) /\
  (forall row col lyr v, kept_cell feq feqM r m r0 r1 c0 c1 row col -> layer_ok r lyr -> sees feq r m row col lyr v ->
     GetValue r5 (row - r0) (col - c0) lyr = Ok v).

Lemma trimmed_run r0 r1 c0 c1 : match_box feq feqM r m r0 r1 c0 c1 -> r_maskext r = false ->
  ~ (r1 - r0 + 1 = r_rows m /\ c1 - c0 + 1 = r_cols m) ->
  (r_calc r = true \/ r_rows m * r_cols m <= 2147483647 /\ r_rows r * r_cols r <> (c1 - c0 + 1) * (r1 - r0 + 1)) ->
  exists st r5, mask_scan feq m r (rcs m ix) = Ok st /\ MaskAndCalc feq feqM ord m r = Ok (r5, m, false, 2) /\ trimmed r5 r0 r1 c0 c1 /\
    rowcol_flag (within_of m st) (r_maskext r) = true /\ ready feqM m m ix /\ scanned feq m r (rcs m ix) st /\
    (if r_calc r then compact r5 (map (fun rc => (fst rc - r0) * (c1 - c0 + 1) + (snd rc - c0)) (filter (fun rc => keepb feq r st (seen feq m r rc)) (rcs m ix)))
     else full_grid r5) /\
    (forall row col, In (row, col) (filter (fun rc => keepb feq r st (seen feq m r rc)) (rcs m ix)) <-> kept_cell feq feqM r m r0 r1 c0 c1 row col).
Proof.
  intros MB ME NW CA. destruct (run_compact feq feqM m r ord ix CM O L SR SM TO) as (st & SC & RD & SD & NX & E). cbv zeta in E.
  set (w := within_of m st) in *.
  destruct (box_of feq feqM m r W L SR m ix st r0 r1 c0 c1 RD SD Q ND MB) as (Q1 & Q2 & Q3 & Q4 & BX).
  assert (CL : clean feq m r (rcs m ix)) by (eapply clean_of; eauto).
  destruct (kept_iff feq feqM m r L SR m ix st r0 r1 c0 c1 RD SD CL Q1 Q2 Q3 Q4) as [KE KI].
  assert (WF : w = false) by (unfold w, within_of; rewrite Q1, Q2, Q3, Q4; clear - NW; apply not_true_is_false; intros X; apply NW; lia).
  assert (LO : layer_ok r 1) by (destruct L as (_&_&X&_); split; clear - X; lia).
  unfold recalc_flag, fullsize_flag, rowcol_flag, calc_flag in E. rewrite ME, WF in E. cbn [andb negb orb] in E.
  destruct (r_calc r) eqn:CC.
  - assert (KN : kept feq r st <> []).
    { destruct (match_kept feq feqM m r r0 r1 c0 c1 MB) as (a & b & KC). apply KI in KC. rewrite KE. intros X. apply map_eq_nil in X. rewrite X in KC. destruct KC. }
    cbn [negb] in E.
    edestruct (finish_recalc feq feqM m m ix r st (r_rows r * r_cols r) ord L RD SD NX true) as (r5 & E5 & C5 & G5 & L5 & N5 & V5); [exact BX|exact KN|].
    rewrite E5 in E. cbv zeta in C5, G5. pose proof (finish_init _ _ _ _ _ _ _ _ _ _ _ _ _ _ _ E5) as I5. rewrite (scan_init st SD) in I5.
    rewrite Q1, Q2, Q3, Q4 in G5. pose proof G5 as G5'. injection G5' as G1 G2 G3 G4 G6.
    destruct (recalc_values feq feqM m r L SR m ix st r5 (c1 - c0 + 1) r0 r1 c0 c1 RD SD CL Q1 Q2 Q3 Q4 G2) as [A B]; auto; rewrite ?G1; try (clear; lia).
    { clear - C5 Q3 Q4. subst c0 c1. exact C5. }
    exists st, r5. split; [exact SC|]. split; [exact E|]. split.
    { split; [left; eexists; exact C5|]. split; [exact I5|]. split; [exact N5|]. split; [exact L5|]. split; [exact G5|]. split; [|exact A].
      intros [a b] V. unfold moved, shown. cbn [fst snd] in *. rewrite N5.
      destruct (In_dec (fun x y : Z * Z => ltac:(decide equality; apply Z.eq_dec)) (a, b) (filter (fun rc => keepb feq r st (seen feq m r rc)) (rcs m ix))) as [X|X].
      - apply KI in X. split; [intros _; exact X|]. intros _. pose proof X as (_ & _ & v & S & F). exists v. split; [|exact F]. apply (A _ _ 1 v X LO S).
      - assert (X' : ~ kept_cell feq feqM r m r0 r1 c0 c1 a b) by (intros X'; apply X, KI, X'). split; [|intros; contradiction].
        intros (v & H & F). rewrite (B (a - r0) (b - c0) 1) in H; [injection H as <-; congruence|].
        replace (a - r0 + r0) with a by (clear; lia). replace (b - c0 + c0) with b by (clear; lia). exact X'. }
    split; [unfold rowcol_flag; fold w; rewrite ME, WF; reflexivity|]. split; [exact RD|]. split; [exact SD|]. split; [|exact KI].
    rewrite KE, map_map, Q1, Q3, Q4 in C5. exact C5.
  - destruct CA as [CA|[SZ NS]]; [discriminate|]. cbn [negb] in E.
    edestruct (finish_full feq feqM m m ix r st (r_rows r * r_cols r) ord L RD SD NX) as (r5 & E5 & F5 & G5 & L5 & N5 & V5 & U5);
      [exact BX|rewrite Q1, Q2, Q3, Q4; exact NS|clear - BX SZ; unfold matched_box in BX; nia|].
    rewrite E5 in E. pose proof (finish_init _ _ _ _ _ _ _ _ _ _ _ _ _ _ _ E5) as I5. rewrite (scan_init st SD) in I5.
    rewrite Q1, Q2, Q3, Q4 in G5. pose proof G5 as G5'. injection G5' as G1 G2 G3 G4 G6.
    destruct (full_values feq feqM m r L SR m ix st r5 r0 r1 c0 c1 RD SD CL Q1 Q2 Q3 Q4 F5 G1 G2 L5 N5 V5 U5) as [A B].
    exists st, r5. split; [exact SC|]. split; [exact E|]. split.
    { split; [right; exact F5|]. split; [exact I5|]. split; [exact N5|]. split; [exact L5|]. split; [exact G5|]. split.
      - intros [a b] V. unfold moved, shown. cbn [fst snd] in *. rewrite N5. destruct (sees_total a b 1) as (v & S). split.
        + intros (v' & H & F).
          assert (IB : in_box r0 r1 c0 c1 a b).
          { unfold in_box. destruct (ValidateRowCol r5 (a - r0) (b - c0)) eqn:VR.
            - apply vrc_true in VR. unfold inside in VR. rewrite G1, G2 in VR. clear - VR. lia.
            - apply vrc_false in VR. rewrite GetValue_invalid in H by tauto. injection H as <-. congruence. }
          rewrite (A a b 1 v V IB LO S) in H. injection H as <-. split; [exact V|]. split; [exact IB|]. exists v. auto.
        + intros (_ & IB & v' & S' & F). rewrite (sees_one _ _ _ _ _ S' S) in F. exists v. split; [|exact F]. apply A; auto.
      - intros row col lyr v (V & IB & _) LY S. apply A; auto. }
    split; [unfold rowcol_flag; fold w; rewrite ME, WF; reflexivity|]. split; [exact RD|]. split; [exact SD|]. split; [exact F5|exact KI].
Qed.

Lemma way_rebuilt r0 r1 c0 c1 : window_known r0 r1 c0 c1 -> match_box feq feqM r m r0 r1 c0 c1 -> r_maskext r = false ->
  ~ (r1 - r0 + 1 = r_rows m /\ c1 - c0 + 1 = r_cols m) ->
  (r_calc r = true \/ r_rows m * r_cols m <= 2147483647 /\ r_rows r * r_cols r <> (c1 - c0 + 1) * (r1 - r0 + 1)) ->
  (exists row col, mask_valid feqM m row col /\ ~ matches feq r m row col) ->
  exists r' subs', MaskAndCalcSubs feq feqM ord m msubs r rsubs = Ok (r', m, false, 2, subs') /\
    geo_of r' = mkGeo (r1 - r0 + 1) (c1 - c0 + 1) (fst (centre m r1 c0)) (snd (centre m r1 c0)) (r_cs m) /\
    chosen (fun ks => exists rc, In rc (cells (fst ks)) /\ kept_cell feq feqM r m r0 r1 c0 c1 (fst rc) (snd rc))
      (fun ks ks' => fst ks' = fst ks /\ exists cs',
         chosen (fun rc => kept_cell feq feqM r m r0 r1 c0 c1 (fst rc) (snd rc)) (fun rc rc' => rc' = (fst rc - r0, snd rc - c0)) (cells (fst ks)) cs' /\
         describes r' (snd ks') cs' /\ s_lyrs (snd ks') = r_nlyrs r /\ s_usable (snd ks') = s_usable (snd ks) /\
         s_data (snd ks') = None /\ s_data2 (snd ks') = None) msubs subs' /\
    (forall row col lyr v, kept_cell feq feqM r m r0 r1 c0 c1 row col -> layer_ok r lyr -> sees feq r m row col lyr v ->
       GetValue r' (row - r0) (col - c0) lyr = Ok v).
Proof.
  intros HK MB ME NW CA NA. destruct (trimmed_run r0 r1 c0 c1 MB ME NW CA) as (st & r5 & SC & E & (US & I5 & N5 & L5 & G5 & SH & VA) & RC & RD & SD & _).
  assert (EX : (k_matched st =? Z.of_nat (length ix)) = false).
  { apply not_true_is_false. intros X. destruct NA as (a & b & V & N). apply N. eapply exact_iff; eauto. }
  destruct (subs_rebuilt feq m r ix CM r5 r0 c0 msubs cells) as (subs' & ES & CH); auto.
  { apply (f_equal g_cs) in G5. cbn in G5. rewrite G5. exact SM. } { rewrite G5. exact HK. } { rewrite N5. exact ND. } { eapply trimmed_centres. exact G5. }
  rewrite (subs_call feq feqM m r ord ix CM st r5 m false msubs rsubs cells SC E MS). rewrite RC, EX. cbn [negb andb]. rewrite ES. cbn [obind].
  exists r5, subs'. split; [reflexivity|]. split; [exact G5|]. split; [|exact VA].
  eapply chosen_imp; [| |exact CH].
  - intros [k s] I. cbn [fst]. split; intros (rc & J & H); exists rc; (split; [exact J|]); apply SH; auto; eapply cells_valid; eauto.
  - intros [k s] [k' s'] I _ (R1 & cs' & R2 & R3 & R4 & R5). cbn [fst snd] in *. split; [exact R1|]. exists cs'. rewrite L5 in R4. split; [|auto].
    eapply chosen_imp; [| |exact R2]; [|auto]. intros rc J. apply SH. eapply cells_valid; eauto.
Qed.

(** All mask cells match: the subsets are not looked at. *)
Lemma way_exact r0 r1 c0 c1 : window_known r0 r1 c0 c1 -> match_box feq feqM r m r0 r1 c0 c1 -> r_maskext r = false ->
  ~ (r1 - r0 + 1 = r_rows m /\ c1 - c0 + 1 = r_cols m) ->
  (r_calc r = true \/ r_rows m * r_cols m <= 2147483647 /\ r_rows r * r_cols r <> (c1 - c0 + 1) * (r1 - r0 + 1)) ->
  (forall row col, mask_valid feqM m row col -> matches feq r m row col) ->
  exists r', MaskAndCalcSubs feq feqM ord m msubs r rsubs = Ok (r', m, false, 2, map (fun ks => (fst ks, relayered (r_nlyrs r) (snd ks))) msubs) /\
    geo_of r' = mkGeo (r1 - r0 + 1) (c1 - c0 + 1) (fst (centre m r1 c0)) (snd (centre m r1 c0)) (r_cs m) /\
    (if r_calc r then compact r' (map (fun rc => (fst rc - r0) * (c1 - c0 + 1) + (snd rc - c0)) (rcs m ix)) else full_grid r') /\
    (forall row col, mask_valid feqM m row col -> in_box r0 r1 c0 c1 row col).
Proof.
  intros HK MB ME NW CA ALL. destruct (trimmed_run r0 r1 c0 c1 MB ME NW CA) as (st & r5 & SC & E & (US & I5 & N5 & L5 & G5 & SH & VA) & RC & RD & SD & F5 & KI).
  assert (EX : (k_matched st =? Z.of_nat (length ix)) = true) by (eapply exact_iff; eauto).
  destruct (subs_kept feq m r ix CM r5 r0 c0 msubs cells) as (subs' & ES & CH); auto.
  { apply (f_equal g_cs) in G5. cbn in G5. rewrite G5. exact SM. } { rewrite G5. exact HK. } { rewrite N5. exact ND. } { eapply trimmed_centres. exact G5. }
  rewrite (subs_call feq feqM m r ord ix CM st r5 m false msubs rsubs cells SC E MS). rewrite RC, EX. cbn [negb andb]. rewrite ES. cbn [obind].
  assert (KA : forall row col, mask_valid feqM m row col -> kept_cell feq feqM r m r0 r1 c0 c1 row col).
  { intros a b V. pose proof (ALL a b V) as MA. destruct MB as (BB & _). split; [exact V|]. split; [apply BB; assumption|]. destruct MA as (i & j & v & LI & GV & F). exists v. split; [|exact F].
    exists (At i j). split; [exact LI|]. exists v. split; [exact GV|]. unfold replaced. rewrite F. reflexivity. }
  assert (ESUB : subs' = map (fun ks => (fst ks, relayered (r_nlyrs r) (snd ks))) msubs).
  { assert (ALLK : forall ks, In ks msubs -> exists rc, In rc (cells (fst ks)) /\ shown feq r5 (moved r0 c0 rc)).
    { intros [k s] I. cbn [fst]. pose proof MS as [_ H]. destruct (H k s I) as [DS _]. pose proof DS as (_ & _ & _ & _ & _ & _ & _ & TI). apply tight_ne in TI.
      destruct (cells k) as [|rc l] eqn:EC; [congruence|]. exists rc. split; [left; reflexivity|]. assert (V : mask_valid feqM m (fst rc) (snd rc)) by (eapply cells_valid; [exact I|rewrite EC; left; reflexivity]).
      apply SH; [exact V|]. apply KA. exact V. }
    clear - CH ALLK. induction CH as [|ks ks' l l' K R C IH|ks l l' K C IH]; [reflexivity| |].
    - subst ks'. cbn [map]. f_equal. apply IH. intros; apply ALLK; right; assumption.
    - exfalso. apply K. apply ALLK. left; reflexivity. }
  exists r5. rewrite ESUB. split; [reflexivity|]. split; [exact G5|]. split.
  - destruct (r_calc r); [|exact F5].
    assert (FA : filter (fun rc => keepb feq r st (seen feq m r rc)) (rcs m ix) = rcs m ix); [|rewrite FA in F5; exact F5].
    pose proof RD as (_&_&_&VAL&_). assert (H : forall rc, In rc (rcs m ix) -> keepb feq r st (seen feq m r rc) = true).
    { intros [a b] I. assert (X : In (a, b) (filter (fun rc => keepb feq r st (seen feq m r rc)) (rcs m ix))) by (apply KI, KA, VAL, I). apply filter_In in X. apply X. }
    clear - H. induction (rcs m ix) as [|x l IH]; [reflexivity|]. cbn [filter]. rewrite H by (left; reflexivity). f_equal. apply IH. intros; apply H; right; assumption.
  - intros row col V. apply KA. exact V.
Qed.
End Ways.
