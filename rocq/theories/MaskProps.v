(** C33-C37: reading a raster through a mask. *)
From Coq Require Import ZArith QArith List Bool Lia Lqa Sorted Permutation.
From Verif Require Import Base ListLib RasterModel RasterSpec RasterProofs RasterProofs2 RasterProofs3 CoordModel CoordSpec CoordProofs
  MaskModel MaskSpec MaskProofs MaskProofs2 MaskProofs3 MaskProofs4 MaskProofs5.
Import ListNotations.
Open Scope Z_scope.
Open Scope outcome_scope.

(** ** C33. With the mask's extent and positions borrowed from it, the raster gets
    the mask's grid; each valid mask cell shows the value of the source cell under
    its centre, and all other cells are NoData. *)
Theorem C33_mask : forall (T M : Type) (feq : T -> T -> bool) (feqM : M -> M -> bool) (m : raster M) (r : raster T) ord,
  wf m -> mask_order feqM m ord -> loaded r -> (0 < r_cs r)%Q -> (0 < r_cs m)%Q ->
  r_maskext r = true -> r_calc r = false ->
  r_nlyrs r <= 2 \/ quiet feq feqM r m -> touches feqM r m ->
  exists r' m', MaskAndCalc feq feqM ord m r = Ok (r', m', true, 2) /\ geo_of r' = geo_of m /\ r_nlyrs r' = r_nlyrs r /\
    (forall row col lyr v, mask_valid feqM m row col -> layer_ok r lyr -> sees feq r m row col lyr v -> GetValue r' row col lyr = Ok v) /\
    (forall row col lyr, ~ mask_valid feqM m row col -> GetValue r' row col lyr = Ok (r_nodata r)).
Proof.
  intros T M feq feqM m r ord W O L SR SM ME CA Q TO.
  destruct (run_ok feq feqM m r ord W O L SR SM) as (m1 & ix & st & RD & SD & _ & RUN).
  pose proof (proj2 (masked_pos feq feqM m r L SR m1 ix st RD SD) TO) as NZ. destruct (RUN NZ) as (NX & E). cbv zeta in E.
  unfold recalc_flag, fullsize_flag, rowcol_flag, calc_flag in E. rewrite ME, CA, !orb_true_r, !andb_false_r in E. cbn [andb] in E.
  edestruct (finish_borrow feq feqM m m1 ix r st (r_rows r * r_cols r) ord L RD SD NX) as (r5 & E5 & C5 & G5 & L5 & N5 & V5).
  rewrite E5 in E. exists r5, m1. split; [exact E|]. split; [exact G5|]. split; [exact L5|].
  eapply borrow_values; eauto. eapply clean_of; eauto.
Qed.
Print Assumptions C33_mask.

(** The same holds when the raster asked for positions of its own, provided that
    every valid mask cell lies over a value. *)
Theorem C33_exact : forall (T M : Type) (feq : T -> T -> bool) (feqM : M -> M -> bool) (m : raster M) (r : raster T) ord,
  wf m -> mask_order feqM m ord -> loaded r -> (0 < r_cs r)%Q -> (0 < r_cs m)%Q ->
  r_maskext r = true -> quiet feq feqM r m -> feq (r_nodata r) (r_nodata r) = true -> touches feqM r m ->
  (forall row col, mask_valid feqM m row col -> matches feq r m row col) ->
  exists r' m', MaskAndCalc feq feqM ord m r = Ok (r', m', true, 2) /\ geo_of r' = geo_of m /\ r_nlyrs r' = r_nlyrs r /\
    (forall row col lyr v, mask_valid feqM m row col -> layer_ok r lyr -> sees feq r m row col lyr v -> GetValue r' row col lyr = Ok v) /\
    (forall row col lyr, ~ mask_valid feqM m row col -> GetValue r' row col lyr = Ok (r_nodata r)).
Proof.
  intros T M feq feqM m r ord W O L SR SM ME Q ND TO ALL.
  destruct (run_ok feq feqM m r ord W O L SR SM) as (m1 & ix & st & RD & SD & _ & RUN).
  pose proof (proj2 (masked_pos feq feqM m r L SR m1 ix st RD SD) TO) as NZ. destruct (RUN NZ) as (NX & E). cbv zeta in E.
  assert (EX := proj2 (exact_iff feq feqM m r m1 ix st W L SR RD SD Q ND) ALL). rewrite EX in E.
  unfold recalc_flag, fullsize_flag, rowcol_flag, calc_flag in E. rewrite ME, !orb_true_r in E. cbn [negb] in E. rewrite !andb_false_r in E. cbn [andb] in E.
  edestruct (finish_borrow feq feqM m m1 ix r st (r_rows r * r_cols r) ord L RD SD NX) as (r5 & E5 & C5 & G5 & L5 & N5 & V5).
  rewrite E5 in E. exists r5, m1. split; [exact E|]. split; [exact G5|]. split; [exact L5|].
  eapply borrow_values; eauto. eapply clean_of; eauto.
Qed.
Print Assumptions C33_exact.

(** A mask that nowhere lies over the raster leaves it as it was. *)
Theorem C33_apart : forall (T M : Type) (feq : T -> T -> bool) (feqM : M -> M -> bool) (m : raster M) (r : raster T) ord,
  wf m -> mask_order feqM m ord -> loaded r -> (0 < r_cs r)%Q -> (0 < r_cs m)%Q -> ~ touches feqM r m ->
  exists m', MaskAndCalc feq feqM ord m r = Ok (r, m', true, -1).
Proof.
  intros T M feq feqM m r ord W O L SR SM TO.
  destruct (run_ok feq feqM m r ord W O L SR SM) as (m1 & ix & st & RD & SD & Z0 & _). exists m1. apply Z0.
  destruct (Z.eq_dec (k_masked st) 0) as [E|E]; [exact E|]. exfalso. apply TO. eapply masked_pos; eauto.
Qed.
Print Assumptions C33_apart.

(** ** C37. The call always finishes: no assertion fails, nothing undefined
    happens. *)
Theorem C37_total : forall (T M : Type) (feq : T -> T -> bool) (feqM : M -> M -> bool) (m : raster M) (r : raster T) ord,
  wf m -> mask_order feqM m ord -> loaded r -> (0 < r_cs r)%Q -> (0 < r_cs m)%Q -> r_rows m * r_cols m <= 2147483647 ->
  exists r' m' kept code, MaskAndCalc feq feqM ord m r = Ok (r', m', kept, code) /\
    (code = 2 <-> touches feqM r m) /\ (code = -1 <-> ~ touches feqM r m).
Proof.
  intros T M feq feqM m r ord W O L SR SM SZ.
  destruct (run_ok feq feqM m r ord W O L SR SM) as (m1 & ix & st & RD & SD & Z0 & RUN).
  pose proof (masked_pos feq feqM m r L SR m1 ix st RD SD) as MP.
  destruct (Z.eq_dec (k_masked st) 0) as [E0|NZ].
  - exists r, m1, true, (-1). split; [apply Z0, E0|]. rewrite <- MP. clear - E0. split; split; lia.
  - assert (GOAL : exists r' k, MaskAndCalc feq feqM ord m r = Ok (r', m1, k, 2)).
    2:{ destruct GOAL as (r' & k & E). exists r', m1, k, 2. split; [exact E|]. rewrite <- MP. clear - NZ. split; split; lia. }
    destruct (RUN NZ) as (NX & E). cbv zeta in E. rewrite E. clear E RUN Z0.
    assert (KB : matched_box m st \/ kept feq r st = [] /\ (k_minr st = r_rows m /\ k_maxr st = -1 /\ k_minc st = r_cols m /\ k_maxc st = -1)).
    { destruct (box_any feq feqM m r m1 ix st RD SD) as [B|(B1 & B2 & B3 & B4)]; [left; exact B|right]. split; [|auto].
      unfold kept. destruct (filter _ (k_cells st)) as [|c l] eqn:F; [reflexivity|]. exfalso.
      assert (I : In c (filter (keepb feq r st) (k_cells st))) by (rewrite F; left; reflexivity). apply filter_In in I. destruct I as [_ I].
      apply keepb_in in I. pose proof (mcols m W). clear - B1 B2 I H. lia. }
    assert (BOR : forall vn, exists r', mask_finish feq feqM ord m1 st (r_rows r * r_cols r) false false false true vn = Ok (r', m1, true, 2)).
    { intros vn. destruct (finish_borrow feq feqM m m1 ix r st (r_rows r * r_cols r) ord L RD SD NX vn) as (r5 & E5 & _). exists r5; exact E5. }
    assert (REC : forall rowcol vn, exists r' k, mask_finish feq feqM ord m1 st (r_rows r * r_cols r) true false rowcol true vn = Ok (r', m1, k, 2)).
    { intros rowcol vn. destruct (list_eq_dec_nil (kept feq r st)) as [KE|KE].
      - destruct (finish_recalc_empty feq feqM m m1 ix r st (r_rows r * r_cols r) ord RD SD rowcol vn KE) as (r5 & E5 & _). exists r5, false; exact E5.
      - destruct KB as [KB|[KB _]]; [|congruence].
        destruct (finish_recalc feq feqM m m1 ix r st (r_rows r * r_cols r) ord L RD SD NX rowcol vn KB KE) as (r5 & E5 & _). exists r5, false; exact E5. }
    unfold recalc_flag, fullsize_flag, rowcol_flag, calc_flag.
    destruct (within_of m st || r_maskext r) eqn:WU.
    + replace (negb (within_of m st) && negb (r_maskext r)) with false by (destruct (within_of m st), (r_maskext r); cbn in *; congruence).
      cbn [andb]. destruct (r_calc r && _).
      * apply REC.
      * destruct (BOR (validnum_flag (within_of m st) (r_maskext r) (r_calc r) (k_matched st =? Z.of_nat (length ix)))) as (r' & E). exists r', true; exact E.
    + replace (negb (within_of m st) && negb (r_maskext r)) with true by (destruct (within_of m st), (r_maskext r); cbn in *; congruence).
      cbn [andb]. destruct (r_calc r); cbn [negb]; [apply REC|].
      set (vn := validnum_flag _ _ _ _).
      destruct KB as [KB|(_ & B1 & B2 & B3 & B4)].
      * destruct (Z.eq_dec (r_rows r * r_cols r) ((k_maxc st - k_minc st + 1) * (k_maxr st - k_minr st + 1))) as [SE|SE].
        -- destruct (finish_same feq feqM m m1 ix r st (r_rows r * r_cols r) ord RD SD vn SE) as (r5 & E5 & _). exists r5, false; exact E5.
        -- destruct (finish_full feq feqM m m1 ix r st (r_rows r * r_cols r) ord L RD SD NX vn KB SE) as (r5 & E5 & _).
           { clear - KB SZ. unfold matched_box in KB. nia. }
           exists r5, false; exact E5.
      * destruct (finish_none feq feqM m m1 ix r st (r_rows r * r_cols r) ord L RD SD NX vn B2 B1 B4 B3) as (r5 & E5 & _); [clear - SZ; lia|].
        exists r5, false; exact E5.
Qed.
Print Assumptions C37_total.

(** ** C34. Positions of its own and the extent of the matches: the raster is
    trimmed to the rectangle of the matches and every value keeps its place. *)
Theorem C34_trimmed : forall (T M : Type) (feq : T -> T -> bool) (feqM : M -> M -> bool) (m : raster M) (r : raster T) ord r0 r1 c0 c1,
  wf m -> mask_order feqM m ord -> loaded r -> (0 < r_cs r)%Q -> (0 < r_cs m)%Q ->
  r_maskext r = false -> r_calc r = true -> quiet feq feqM r m -> feq (r_nodata r) (r_nodata r) = true ->
  touches feqM r m -> match_box feq feqM r m r0 r1 c0 c1 ->
  exists r' m' k, MaskAndCalc feq feqM ord m r = Ok (r', m', k, 2) /\
    r_rows r' = r1 - r0 + 1 /\ r_cols r' = c1 - c0 + 1 /\ r_nlyrs r' = r_nlyrs r /\ r_cs r' = r_cs m /\
    (forall row col, fst (centre r' (row - r0) (col - c0)) == fst (centre m row col) /\
                     snd (centre r' (row - r0) (col - c0)) == snd (centre m row col))%Q /\
    (forall row col lyr v, kept_cell feq feqM r m r0 r1 c0 c1 row col -> layer_ok r lyr -> sees feq r m row col lyr v ->
       GetValue r' (row - r0) (col - c0) lyr = Ok v) /\
    (forall row col lyr, ~ kept_cell feq feqM r m r0 r1 c0 c1 (row + r0) (col + c0) -> GetValue r' row col lyr = Ok (r_nodata r)).
Proof.
  intros T M feq feqM m r ord r0 r1 c0 c1 W O L SR SM ME CA Q ND TO MB.
  destruct (run_ok feq feqM m r ord W O L SR SM) as (m1 & ix & st & RD & SD & _ & RUN).
  pose proof (proj2 (masked_pos feq feqM m r L SR m1 ix st RD SD) TO) as NZ. destruct (RUN NZ) as (NX & E). cbv zeta in E.
  destruct (box_of feq feqM m r W L SR m1 ix st r0 r1 c0 c1 RD SD Q ND MB) as (Q1 & Q2 & Q3 & Q4 & BX).
  assert (CL : clean feq m r (rcs m ix)) by (eapply clean_of; eauto).
  assert (KN : kept feq r st <> []).
  { destruct (kept_iff feq feqM m r L SR m1 ix st r0 r1 c0 c1 RD SD CL Q1 Q2 Q3 Q4) as [KE KI]. destruct (match_kept feq feqM m r r0 r1 c0 c1 MB) as (a & b & KC).
    apply KI in KC. rewrite KE. intros X. apply map_eq_nil in X. rewrite X in KC. destruct KC. }
  unfold recalc_flag, fullsize_flag, rowcol_flag, calc_flag in E. rewrite ME, CA, !orb_false_r in E. cbn [andb negb] in E. rewrite !andb_true_r, andb_false_r in E.
  assert (WI : within_of m st = true -> r0 = 0 /\ c0 = 0 /\ r1 = r_rows m - 1 /\ c1 = r_cols m - 1).
  { unfold within_of. rewrite Q1, Q2, Q3, Q4, andb_true_iff, !Z.eqb_eq. unfold matched_box in BX. rewrite Q1, Q2, Q3, Q4 in BX. clear - BX. lia. }
  destruct (within_of m st && (k_matched st =? Z.of_nat (length ix))) eqn:FULL.
  - apply andb_true_iff in FULL. destruct FULL as [F1 F2]. rewrite F1, F2 in E. cbn [negb] in E. destruct (WI F1) as (-> & -> & -> & ->).
    edestruct (finish_borrow feq feqM m m1 ix r st (r_rows r * r_cols r) ord L RD SD NX) as (r5 & E5 & C5 & G5 & L5 & N5 & V5).
    rewrite E5 in E. exists r5, m1, true. split; [exact E|].
    assert (GG : r_rows r5 = r_rows m /\ r_cols r5 = r_cols m /\ r_xll r5 = r_xll m /\ r_yll r5 = r_yll m /\ r_cs r5 = r_cs m).
    { unfold geo_of in G5. injection G5. auto. }
    destruct GG as (G1 & G2 & G3 & G4 & G6).
    split; [rewrite G1; clear; lia|]. split; [rewrite G2; clear; lia|]. split; [exact L5|]. split; [exact G6|].
    split. { intros row col. unfold centre. rewrite G1, G3, G4, G6, !Z.sub_0_r. cbn [fst snd]. split; reflexivity. }
    destruct (borrow_values feq feqM m r W L SR m1 ix st r5 RD SD CL C5 G5 L5 N5 V5) as [A B]. 
    assert (ALL := proj1 (exact_iff feq feqM m r m1 ix st W L SR RD SD Q ND) F2).
    split. { intros row col lyr v (V & _) LO S. rewrite !Z.sub_0_r. apply A; assumption. }
    intros row col lyr NK. apply B. intros V. apply NK. rewrite !Z.add_0_r. split; [exact V|]. split; [apply MB; [exact V|apply ALL, V]|].
    destruct (ALL row col V) as (i & j & v & LI & GV & F). exists v. split; [|exact F]. exists (At i j). split; [exact LI|]. exists v. split; [exact GV|]. unfold replaced. rewrite F. reflexivity.
  - assert (E' : exists rc vn, MaskAndCalc feq feqM ord m r = mask_finish feq feqM ord m1 st (r_rows r * r_cols r) true false rc true vn /\
       (rc = false -> within_of m st = true)).
    { destruct (within_of m st) eqn:WW; cbn [andb] in FULL.
      - rewrite FULL in E. cbn [negb] in E. eexists false, _. split; [exact E|reflexivity].
      - cbn [negb] in E. eexists true, _. split; [exact E|discriminate]. }
    clear E. destruct E' as (rc & vn & E & RC).
    edestruct (finish_recalc feq feqM m m1 ix r st (r_rows r * r_cols r) ord L RD SD NX rc vn BX KN) as (r5 & E5 & C5 & G5 & L5 & N5 & V5).
    rewrite E5 in E. exists r5, m1, false. split; [exact E|]. rewrite Q1, Q2, Q3, Q4 in G5.
    unfold geo_of in G5. injection G5 as G1 G2 G3 G4 G6.
    assert (G1' : r_rows r5 = r1 - r0 + 1). { rewrite G1. destruct rc; [reflexivity|]. destruct (WI (RC eq_refl)) as (-> & -> & -> & ->). clear; lia. }
    assert (G2' : r_cols r5 = c1 - c0 + 1). { rewrite G2. destruct rc; [reflexivity|]. destruct (WI (RC eq_refl)) as (-> & -> & -> & ->). clear; lia. }
    split; [exact G1'|]. split; [exact G2'|]. split; [exact L5|]. split; [exact G6|].
    split.
    { intros row col. unfold centre. rewrite G1', G6, G3, G4. cbn [fst snd]. unfold Z.sub. rewrite !inject_Z_plus, !inject_Z_opp.
      destruct rc.
      - change (inject_Z 1) with 1%Q. split; ring_simplify.
        + ring.
        + rewrite !inject_Z_plus, !inject_Z_opp. change (inject_Z 1) with 1%Q. ring.
      - destruct (WI (RC eq_refl)) as (-> & -> & -> & ->). unfold Z.sub. rewrite !inject_Z_plus, !inject_Z_opp. change (inject_Z 0) with 0%Q. change (inject_Z 1) with 1%Q. split; ring. }
    assert (WE : (if rc then k_maxc st - k_minc st + 1 else r_cols m) = c1 - c0 + 1) by (rewrite Q3, Q4, <- G2; exact G2').
    cbv zeta in C5. rewrite WE in C5.
    apply (recalc_values feq feqM m r L SR m1 ix st r5 (c1 - c0 + 1) r0 r1 c0 c1 RD SD CL Q1 Q2 Q3 Q4 G2'); auto; rewrite ?G1'; try (clear; lia).
Qed.
Print Assumptions C34_trimmed.

(** With the mask's extent the header is the mask's, but the values are moved up
    and left by the position of the first match. *)
Theorem C34_shifted : forall (T M : Type) (feq : T -> T -> bool) (feqM : M -> M -> bool) (m : raster M) (r : raster T) ord r0 r1 c0 c1,
  wf m -> mask_order feqM m ord -> loaded r -> (0 < r_cs r)%Q -> (0 < r_cs m)%Q ->
  r_maskext r = true -> r_calc r = true -> quiet feq feqM r m -> feq (r_nodata r) (r_nodata r) = true ->
  match_box feq feqM r m r0 r1 c0 c1 -> (exists row col, mask_valid feqM m row col /\ ~ matches feq r m row col) ->
  touches feqM r m ->
  exists r' m', MaskAndCalc feq feqM ord m r = Ok (r', m', false, 2) /\ geo_of r' = geo_of m /\ r_nlyrs r' = r_nlyrs r /\
    (forall row col lyr v, kept_cell feq feqM r m r0 r1 c0 c1 row col -> layer_ok r lyr -> sees feq r m row col lyr v ->
       GetValue r' (row - r0) (col - c0) lyr = Ok v) /\
    (forall row col lyr, ~ kept_cell feq feqM r m r0 r1 c0 c1 (row + r0) (col + c0) -> GetValue r' row col lyr = Ok (r_nodata r)).
Proof.
  intros T M feq feqM m r ord r0 r1 c0 c1 W O L SR SM ME CA Q ND MB NA TO.
  destruct (run_ok feq feqM m r ord W O L SR SM) as (m1 & ix & st & RD & SD & _ & RUN).
  pose proof (proj2 (masked_pos feq feqM m r L SR m1 ix st RD SD) TO) as NZ. destruct (RUN NZ) as (NX & E). cbv zeta in E.
  destruct (box_of feq feqM m r W L SR m1 ix st r0 r1 c0 c1 RD SD Q ND MB) as (Q1 & Q2 & Q3 & Q4 & BX).
  assert (CL : clean feq m r (rcs m ix)) by (eapply clean_of; eauto).
  assert (KN : kept feq r st <> []).
  { destruct (kept_iff feq feqM m r L SR m1 ix st r0 r1 c0 c1 RD SD CL Q1 Q2 Q3 Q4) as [KE KI]. destruct (match_kept feq feqM m r r0 r1 c0 c1 MB) as (a & b & KC).
    apply KI in KC. rewrite KE. intros X. apply map_eq_nil in X. rewrite X in KC. destruct KC. }
  assert (EX : (k_matched st =? Z.of_nat (length ix)) = false).
  { apply not_true_is_false. intros X. destruct NA as (a & b & V & N). apply N. eapply exact_iff; eauto. }
  unfold recalc_flag, fullsize_flag, rowcol_flag, calc_flag in E. rewrite ME, CA, EX, !orb_true_r in E. cbn [andb negb] in E. rewrite !andb_false_r in E. 
  edestruct (finish_recalc feq feqM m m1 ix r st (r_rows r * r_cols r) ord L RD SD NX false) as (r5 & E5 & C5 & G5 & L5 & N5 & V5); [exact BX|exact KN|].
  rewrite E5 in E. exists r5, m1. split; [exact E|]. split; [exact G5|]. split; [exact L5|].
  unfold geo_of in G5. injection G5 as G1 G2 _ _ _. unfold matched_box in BX. rewrite Q1, Q2, Q3, Q4 in BX.
  apply (recalc_values feq feqM m r L SR m1 ix st r5 (r_cols m) r0 r1 c0 c1 RD SD CL Q1 Q2 Q3 Q4 G2); auto; rewrite ?G1; try (clear - BX; lia).
Qed.
Print Assumptions C34_shifted.

(** Hence the claim holds when the first match is in the mask's first row and
    column. *)
Theorem C34_aligned : forall (T M : Type) (feq : T -> T -> bool) (feqM : M -> M -> bool) (m : raster M) (r : raster T) ord r1 c1,
  wf m -> mask_order feqM m ord -> loaded r -> (0 < r_cs r)%Q -> (0 < r_cs m)%Q ->
  r_maskext r = true -> r_calc r = true -> quiet feq feqM r m -> feq (r_nodata r) (r_nodata r) = true ->
  match_box feq feqM r m 0 r1 0 c1 -> (exists row col, mask_valid feqM m row col /\ ~ matches feq r m row col) ->
  touches feqM r m ->
  exists r' m', MaskAndCalc feq feqM ord m r = Ok (r', m', false, 2) /\ geo_of r' = geo_of m /\
    (forall row col lyr v, kept_cell feq feqM r m 0 r1 0 c1 row col -> layer_ok r lyr -> sees feq r m row col lyr v ->
       GetValue r' row col lyr = Ok v).
Proof.
  intros T M feq feqM m r ord r1 c1 W O L SR SM ME CA Q ND MB NA TO.
  destruct (C34_shifted T M feq feqM m r ord 0 r1 0 c1 W O L SR SM ME CA Q ND MB NA TO) as (r' & m' & E & G & _ & V & _).
  exists r', m'. split; [exact E|]. split; [exact G|]. intros row col lyr v K LO S. rewrite <- (Z.sub_0_r row), <- (Z.sub_0_r col). apply V; assumption.
Qed.
Print Assumptions C34_aligned.

(** ** C35. Neither positions nor the mask's extent: the rectangle of the matches
    is filled, unless it has as many cells as the source. *)
Theorem C35_hidden : forall (T M : Type) (feq : T -> T -> bool) (feqM : M -> M -> bool) (m : raster M) (r : raster T) ord r0 r1 c0 c1,
  wf m -> mask_order feqM m ord -> loaded r -> (0 < r_cs r)%Q -> (0 < r_cs m)%Q ->
  r_maskext r = false -> r_calc r = false -> quiet feq feqM r m -> feq (r_nodata r) (r_nodata r) = true ->
  touches feqM r m -> match_box feq feqM r m r0 r1 c0 c1 ->
  r_rows m * r_cols m <= 2147483647 ->
  ~ (r1 - r0 + 1 = r_rows m /\ c1 - c0 + 1 = r_cols m) ->
  r_rows r * r_cols r <> (c1 - c0 + 1) * (r1 - r0 + 1) ->
  exists r' m', MaskAndCalc feq feqM ord m r = Ok (r', m', false, 2) /\
    r_rows r' = r1 - r0 + 1 /\ r_cols r' = c1 - c0 + 1 /\ r_nlyrs r' = r_nlyrs r /\ r_cs r' = r_cs m /\
    (forall row col, fst (centre r' (row - r0) (col - c0)) == fst (centre m row col) /\
                     snd (centre r' (row - r0) (col - c0)) == snd (centre m row col))%Q /\
    (forall row col lyr v, mask_valid feqM m row col -> in_box r0 r1 c0 c1 row col -> layer_ok r lyr -> sees feq r m row col lyr v ->
       GetValue r' (row - r0) (col - c0) lyr = Ok v) /\
    (forall row col lyr, ~ mask_valid feqM m (row + r0) (col + c0) -> GetValue r' row col lyr = Ok (r_nodata r)).
Proof.
  intros T M feq feqM m r ord r0 r1 c0 c1 W O L SR SM ME CA Q ND TO MB SZ NW NS.
  destruct (run_ok feq feqM m r ord W O L SR SM) as (m1 & ix & st & RD & SD & _ & RUN).
  pose proof (proj2 (masked_pos feq feqM m r L SR m1 ix st RD SD) TO) as NZ. destruct (RUN NZ) as (NX & E). cbv zeta in E.
  destruct (box_of feq feqM m r W L SR m1 ix st r0 r1 c0 c1 RD SD Q ND MB) as (Q1 & Q2 & Q3 & Q4 & BX).
  assert (CL : clean feq m r (rcs m ix)) by (eapply clean_of; eauto).
  assert (WF : within_of m st = false) by (unfold within_of; rewrite Q1, Q2, Q3, Q4; clear - NW; apply not_true_is_false; intros X; apply NW; lia).
  unfold recalc_flag, fullsize_flag, rowcol_flag, calc_flag in E. rewrite ME, CA, WF in E. cbn [andb negb orb] in E.
  edestruct (finish_full feq feqM m m1 ix r st (r_rows r * r_cols r) ord L RD SD NX) as (r5 & E5 & F5 & G5 & L5 & N5 & V5 & U5);
    [exact BX|rewrite Q1, Q2, Q3, Q4; exact NS|clear - BX SZ; unfold matched_box in BX; nia|].
  rewrite E5 in E. exists r5, m1. split; [exact E|]. rewrite Q1, Q2, Q3, Q4 in G5. unfold geo_of in G5. injection G5 as G1 G2 G3 G4 G6.
  split; [exact G1|]. split; [exact G2|]. split; [exact L5|]. split; [exact G6|].
  split.
  { intros row col. unfold centre. rewrite G1, G6, G3, G4. cbn [fst snd]. unfold Z.sub. repeat (rewrite inject_Z_plus || rewrite inject_Z_opp).
    change (inject_Z 1) with 1%Q. split; ring. }
  eapply full_values; eauto.
Qed.
Print Assumptions C35_hidden.

(** Rectangle and mask of the same size: positions are borrowed, all cells outside
    the mask are NoData. *)
Theorem C35_covered : forall (T M : Type) (feq : T -> T -> bool) (feqM : M -> M -> bool) (m : raster M) (r : raster T) ord,
  wf m -> mask_order feqM m ord -> loaded r -> (0 < r_cs r)%Q -> (0 < r_cs m)%Q ->
  r_maskext r = false -> r_calc r = false -> quiet feq feqM r m -> feq (r_nodata r) (r_nodata r) = true ->
  touches feqM r m -> match_box feq feqM r m 0 (r_rows m - 1) 0 (r_cols m - 1) ->
  exists r' m', MaskAndCalc feq feqM ord m r = Ok (r', m', true, 2) /\ geo_of r' = geo_of m /\
    (forall row col lyr v, mask_valid feqM m row col -> layer_ok r lyr -> sees feq r m row col lyr v -> GetValue r' row col lyr = Ok v) /\
    (forall row col lyr, ~ mask_valid feqM m row col -> GetValue r' row col lyr = Ok (r_nodata r)).
Proof.
  intros T M feq feqM m r ord W O L SR SM ME CA Q ND TO MB.
  destruct (run_ok feq feqM m r ord W O L SR SM) as (m1 & ix & st & RD & SD & _ & RUN).
  pose proof (proj2 (masked_pos feq feqM m r L SR m1 ix st RD SD) TO) as NZ. destruct (RUN NZ) as (NX & E). cbv zeta in E.
  destruct (box_of feq feqM m r W L SR m1 ix st _ _ _ _ RD SD Q ND MB) as (Q1 & Q2 & Q3 & Q4 & BX).
  assert (WF : within_of m st = true) by (unfold within_of; rewrite Q1, Q2, Q3, Q4; clear; lia).
  unfold recalc_flag, fullsize_flag, rowcol_flag, calc_flag in E. rewrite ME, CA, WF in E. cbn [andb negb orb] in E.
  edestruct (finish_borrow feq feqM m m1 ix r st (r_rows r * r_cols r) ord L RD SD NX) as (r5 & E5 & C5 & G5 & L5 & N5 & V5).
  rewrite E5 in E. exists r5, m1. split; [exact E|]. split; [exact G5|].
  eapply borrow_values; eauto. eapply clean_of; eauto.
Qed.
Print Assumptions C35_covered.

(** The failure: as many cells as the source, and every value of the source is
    kept, whatever the mask says. *)
Theorem C35_unmasked : forall (T M : Type) (feq : T -> T -> bool) (feqM : M -> M -> bool) (m : raster M) (r : raster T) ord r0 r1 c0 c1,
  wf m -> mask_order feqM m ord -> loaded r -> (0 < r_cs r)%Q -> (0 < r_cs m)%Q ->
  r_maskext r = false -> r_calc r = false -> no_default feq r -> feq (r_nodata r) (r_nodata r) = true ->
  touches feqM r m -> match_box feq feqM r m r0 r1 c0 c1 ->
  ~ (r1 - r0 + 1 = r_rows m /\ c1 - c0 + 1 = r_cols m) ->
  r_rows r * r_cols r = (c1 - c0 + 1) * (r1 - r0 + 1) ->
  exists r' m', MaskAndCalc feq feqM ord m r = Ok (r', m', false, 2) /\ r_rows r' = r1 - r0 + 1 /\ r_cols r' = c1 - c0 + 1 /\
    (forall i lyr, 0 <= i < r_rows r * r_cols r -> layer_ok r lyr ->
       GetValue r' (i / r_cols r') (i mod r_cols r') lyr = GetValue r (i / r_cols r) (i mod r_cols r) lyr).
Proof.
  intros T M feq feqM m r ord r0 r1 c0 c1 W O L SR SM ME CA Q ND TO MB NW NS.
  destruct (run_ok feq feqM m r ord W O L SR SM) as (m1 & ix & st & RD & SD & _ & RUN).
  pose proof (proj2 (masked_pos feq feqM m r L SR m1 ix st RD SD) TO) as NZ. destruct (RUN NZ) as (NX & E). cbv zeta in E.
  destruct (box_of feq feqM m r W L SR m1 ix st r0 r1 c0 c1 RD SD (or_introl Q) ND MB) as (Q1 & Q2 & Q3 & Q4 & BX).
  assert (WF : within_of m st = false) by (unfold within_of; rewrite Q1, Q2, Q3, Q4; clear - NW; apply not_true_is_false; intros X; apply NW; lia).
  unfold recalc_flag, fullsize_flag, rowcol_flag, calc_flag in E. rewrite ME, CA, WF in E. cbn [andb negb orb] in E.
  edestruct (finish_same feq feqM m m1 ix r st (r_rows r * r_cols r) ord RD SD) as (r5 & E5 & G5 & D1 & D2 & D3 & L5 & N5 & P1 & P2);
    [rewrite Q1, Q2, Q3, Q4; exact NS|].
  rewrite E5 in E. exists r5, m1. split; [exact E|]. rewrite Q1, Q2, Q3, Q4 in G5. unfold geo_of in G5. injection G5 as G1 G2 _ _ _.
  split; [exact G1|]. split; [exact G2|]. intros i lyr IB LO.
  pose proof SD as (FR & LK & _ & _ & _ & _ & _ & V1 & _ & _).
  destruct (frame_fields _ _ FR) as (F1&F2&F3&F4&F5&F6&F7&F8&F9&F10&F11).
  pose proof L as (RR & RC & RL & STO & RP & RPI). pose proof LK as (KR & KC & KL & KSTO & KP & KPI).
  assert (WB : 0 < c1 - c0 + 1) by (clear - NS RR RC BX Q3 Q4; unfold matched_box in BX; lia).
  assert (RD5 : forall k, read_cell r5 k lyr = read_cell (k_r st) k lyr) by (intros k; unfold read_cell; rewrite D1, D2, D3, F6; reflexivity).
  assert (I5 : inside r5 (i / r_cols r5) (i mod r_cols r5)).
  { unfold inside. rewrite G1, G2. split; [|apply Z.mod_pos_bound; exact WB]. split; [apply Z.div_pos; clear - IB WB; lia|apply Z.div_lt_upper_bound; [exact WB|clear - IB NS; lia]]. }
  assert (IR : inside r (i / r_cols r) (i mod r_cols r)).
  { unfold inside. split; [|apply Z.mod_pos_bound; exact RC]. split; [apply Z.div_pos; clear - IB RC; lia|apply Z.div_lt_upper_bound; [exact RC|clear - IB; lia]]. }
  assert (LD : forall (x : raster T) row col, storage x (r_rows r * r_cols r) -> r_pos x = None -> r_posidx x = None -> r_nlyrs x = r_nlyrs r -> inside x row col ->
     GetValue x row col lyr = read_cell x (row * r_cols x + col) lyr).
  { intros x row col S P PI NL IN. apply (plain_get x (r_rows r * r_cols r)); auto. unfold layer_ok in *. rewrite NL. exact LO. }
  assert (S5 : storage r5 (r_rows r * r_cols r)).
  { rewrite <- F1, <- F2. clear - KSTO D1 D2 D3 L5 F3 F6. unfold storage in *. rewrite D1, D2, D3, L5. rewrite <- F6, <- F3. exact KSTO. }
  rewrite (LD r5), (LD r) by auto. rewrite RD5.
  assert (GV : gv (k_r st) (i / r_cols r, i mod r_cols r) lyr = gv r (i / r_cols r, i mod r_cols r) lyr) by (apply V1; left; exact Q).
  assert (H1 := loaded_get r (i / r_cols r) (i mod r_cols r) lyr L).
  assert (H2 := loaded_get (k_r st) (i / r_cols r) (i mod r_cols r) lyr LK).
  assert (IK : inside (k_r st) (i / r_cols r) (i mod r_cols r)) by (unfold inside in *; rewrite F1, F2; exact IR).
  rewrite (LD r) in H1 by auto. rewrite (LD (k_r st)) in H2 by (auto; rewrite <- ?F1, <- ?F2; auto). rewrite F2 in H2. 
  replace (i / r_cols r5 * r_cols r5 + i mod r_cols r5) with i by (rewrite Z.mul_comm; apply Z.div_mod; rewrite G2; clear - WB; lia).
  replace (i / r_cols r * r_cols r + i mod r_cols r) with i in * by (rewrite Z.mul_comm; apply Z.div_mod; clear - RC; lia).
  rewrite H1, H2, GV. reflexivity.
Qed.
Print Assumptions C35_unmasked.

(** ** C36. The mask covers part of the raster but none of its values: success is
    reported for a raster of negative size. *)
Theorem C36_negative : forall (T M : Type) (feq : T -> T -> bool) (feqM : M -> M -> bool) (m : raster M) (r : raster T) ord,
  wf m -> mask_order feqM m ord -> loaded r -> (0 < r_cs r)%Q -> (0 < r_cs m)%Q ->
  r_maskext r = false -> quiet feq feqM r m -> feq (r_nodata r) (r_nodata r) = true -> r_rows m * r_cols m <= 2147483647 ->
  touches feqM r m -> (forall row col, mask_valid feqM m row col -> ~ matches feq r m row col) ->
  exists r' m', MaskAndCalc feq feqM ord m r = Ok (r', m', false, 2) /\ r_rows r' = - r_rows m /\ r_cols r' = - r_cols m.
Proof.
  intros T M feq feqM m r ord W O L SR SM ME Q ND SZ TO NM.
  destruct (run_ok feq feqM m r ord W O L SR SM) as (m1 & ix & st & RD & SD & _ & RUN).
  pose proof (proj2 (masked_pos feq feqM m r L SR m1 ix st RD SD) TO) as NZ. destruct (RUN NZ) as (NX & E). cbv zeta in E.
  destruct (box_none feq feqM m r W L SR m1 ix st RD SD Q ND NM) as (B1 & B2 & B3 & B4).
  assert (PM := mcols m W).
  assert (WF : within_of m st = false) by (unfold within_of; rewrite B1, B2, B3, B4; clear - PM; lia).
  unfold recalc_flag, fullsize_flag, rowcol_flag, calc_flag in E. rewrite ME, WF in E. cbn [andb negb orb] in E.
  destruct (r_calc r); cbn [negb] in E.
  - assert (KE : kept feq r st = []).
    { unfold kept. destruct (filter _ (k_cells st)) as [|c l] eqn:F; [reflexivity|]. exfalso.
      assert (I : In c (filter (keepb feq r st) (k_cells st))) by (rewrite F; left; reflexivity). apply filter_In in I. destruct I as [_ I].
      apply keepb_in in I. clear - B1 B2 I PM. lia. }
    edestruct (finish_recalc_empty feq feqM m m1 ix r st (r_rows r * r_cols r) ord RD SD true) as (r5 & E5 & G5 & _); [exact KE|].
    rewrite E5 in E. exists r5, m1. split; [exact E|]. unfold geo_of in G5. injection G5 as G1 G2 _ _ _. rewrite G1, G2, B1, B2, B3, B4. clear. lia.
  - edestruct (finish_none feq feqM m m1 ix r st (r_rows r * r_cols r) ord L RD SD NX) as (r5 & E5 & G1 & G2); try eassumption; [clear - SZ; lia|].
    rewrite E5 in E. exists r5, m1. auto.
Qed.
Print Assumptions C36_negative.

(** ** Concrete cases *)
Definition nd := -9999.
Lemma full_1d (d : list Z) cols rows def0 dx x y : 0 < rows -> 0 < cols -> Z.of_nat (length d) = rows * cols ->
  full_grid (FromArray (Some d) cols rows nd def0 dx x y).
Proof.
  intros R C E. unfold full_grid, storage. cbn. split; [exact R|]. split; [exact C|]. split; [lia|]. split; [lia|]. split; [|auto]. split; [reflexivity|]. exists d. auto.
Qed.
Definition source (d : list Z) (cols rows : Z) (def0 : Z) (x y : Q) (ext calc : bool) : raster Z :=
  mkRaster rows cols x y 10 nd (cols * rows) 1 (cols * rows) 1 nd def0 false (Some d) None None None calc false ext true.
Lemma source_loaded d cols rows def0 x y ext calc : 0 < rows -> 0 < cols -> Z.of_nat (length d) = rows * cols ->
  loaded (source d cols rows def0 x y ext calc).
Proof.
  intros R C E. unfold loaded, storage. cbn. split; [exact R|]. split; [exact C|]. split; [lia|]. split; [|auto]. split; [reflexivity|]. exists d. auto.
Qed.
Lemma perm_check (a b : list nat) : (forallb (fun x => Nat.eqb (count_occ Nat.eq_dec a x) (count_occ Nat.eq_dec b x)) (a ++ b)) = true -> Permutation a b.
Proof.
  intros H. apply (Permutation_count_occ Nat.eq_dec). intros x. rewrite forallb_forall in H.
  destruct (in_dec Nat.eq_dec x (a ++ b)) as [I|I]; [apply Nat.eqb_eq, H, I|].
  rewrite !(proj1 (count_occ_not_In Nat.eq_dec _ _)); [reflexivity| |]; intros J; apply I, in_or_app; auto.
Qed.
Lemma valid_1d d cols rows def0 dx x y row col v : full_grid (FromArray (Some d) cols rows nd def0 dx x y) ->
  0 <= row < rows -> 0 <= col < cols -> GetValue (FromArray (Some d) cols rows nd def0 dx x y) row col 1 = Ok v -> v <> nd ->
  mask_valid Z.eqb (FromArray (Some d) cols rows nd def0 dx x y) row col.
Proof. intros F R C G N. split; [split; assumption|]. right. split; [exact F|]. exists v. split; [exact G|]. apply Z.eqb_neq. exact N. Qed.
Lemma invalid_1d d cols rows def0 dx x y row col : 
  GetValue (FromArray (Some d) cols rows nd def0 dx x y) row col 1 = Ok nd ->
  ~ mask_valid Z.eqb (FromArray (Some d) cols rows nd def0 dx x y) row col.
Proof.
  intros G [_ [(ix & C & _)|[F (v & E & N)]]].
  - destruct C as (_&_&_&_&_&_&C&_). discriminate.
  - rewrite G in E. injection E as <-. discriminate.
Qed.

(** A 2x3 source with one NoData cell, and a 3x3 mask whose last row lies below it
    and whose centre is masked out. *)
Definition msk : raster Z := FromArray (Some [1; 1; 1; 1; nd; 1; 1; 1; 1]) 3 3 nd nd 10 100 190.
Definition src0 ext calc := source [nd; 12; 13; 21; 22; 23] 3 2 nd 100 200 ext calc.
Definition mord : list nat := [7; 0; 3; 2; 1; 5; 4; 6]%nat.
Lemma msk_full : full_grid msk. Proof. apply full_1d; reflexivity. Qed.
Lemma src0_loaded e c : loaded (src0 e c). Proof. apply source_loaded; reflexivity. Qed.
Lemma msk_order : mask_order Z.eqb msk mord.
Proof. intros n E. vm_compute in E. injection E as <-. apply perm_check. vm_compute. reflexivity. Qed.
Lemma msk_touches e c : touches Z.eqb (src0 e c) msk.
Proof.
  exists 0, 1. split; [eapply valid_1d; [apply msk_full|lia|lia|reflexivity|discriminate]|]. 
  vm_compute. intros [H|[H|[H|H]]]; discriminate.
Qed.
Example C33_mask_case : exists r' m', MaskAndCalc Z.eqb Z.eqb mord msk (src0 true false) = Ok (r', m', true, 2) /\ geo_of r' = geo_of msk /\
  GetValue r' 0 1 1 = Ok 12 /\ GetValue r' 1 1 1 = Ok nd /\ GetValue r' 1 2 1 = Ok 23 /\ GetValue r' 2 2 1 = Ok nd.
Proof.
  destruct (C33_mask Z Z Z.eqb Z.eqb msk (src0 true false) mord (or_introl msk_full) msk_order (src0_loaded _ _) eq_refl eq_refl eq_refl eq_refl
     (or_intror (or_introl eq_refl)) (msk_touches _ _)) as (r' & m' & E & G & _ & V & U).
  exists r', m'. split; [exact E|]. split; [exact G|].
  split. { apply V; [eapply valid_1d; [apply msk_full|lia|lia|reflexivity|discriminate]|split; [lia|vm_compute; discriminate]|]. exists (At 0 1). split; [vm_compute; repeat split; discriminate|]. exists 12. split; reflexivity. }
  split. { apply U. apply invalid_1d. reflexivity. }
  split. { apply V; [eapply valid_1d; [apply msk_full|lia|lia|reflexivity|discriminate]|split; [lia|vm_compute; discriminate]|]. exists (At 1 2). split; [vm_compute; repeat split; discriminate|]. exists 23. split; reflexivity. }
  apply V; [eapply valid_1d; [apply msk_full|lia|lia|reflexivity|discriminate]|split; [lia|vm_compute; discriminate]|]. exists Away. split; [|reflexivity]. vm_compute. right. right. left. reflexivity.
Qed.

(** Positions of its own, matches alone: the five matching cells form a 2x3
    rectangle. *)
Lemma msk_valid_cases row col : mask_valid Z.eqb msk row col -> 0 <= row < 3 /\ 0 <= col < 3.
Proof. intros [[R C] _]. split; [exact R|exact C]. Qed.
Ltac valid := eapply valid_1d; [apply full_1d; reflexivity|lia|lia|reflexivity|discriminate].
Lemma msk_box e c : match_box Z.eqb Z.eqb (src0 e c) msk 0 1 0 2.
Proof.
  assert (MT : forall i j v, GetValue (src0 e c) i j 1 = Ok v -> Z.eqb v nd = false -> lies (src0 e c) (fst (centre msk i j)) (snd (centre msk i j)) (At i j) -> matches Z.eqb (src0 e c) msk i j).
  { intros i j v A B C. exists i, j, v. auto. }
  assert (LI : forall i j, 0 <= i < 2 -> 0 <= j < 3 -> lies (src0 e c) (fst (centre msk i j)) (snd (centre msk i j)) (At i j)).
  { intros i j I J. assert (i = 0 \/ i = 1) as [->| ->] by lia; assert (j = 0 \/ j = 1 \/ j = 2) as [->|[->| ->]] by lia; vm_compute; repeat split; discriminate. }
  split.
  - intros row col V (i & j & v & L & _). apply msk_valid_cases in V. assert (row <> 2); [|lia]. intros ->. destruct L as (_ & _ & _ & L).
    cbn in L. assert (X : (200 <= 190 + 0 * 10)%Q) by exact L. vm_compute in X. congruence.
  - split; [exists 1|split; [exists 2|split; [exists 1|exists 1]]]; (split; [unfold msk; valid|]).
    + apply (MT 0 1 12); [destruct c; reflexivity|reflexivity|apply LI; lia].
    + apply (MT 1 2 23); [destruct c; reflexivity|reflexivity|apply LI; lia].
    + apply (MT 1 0 21); [destruct c; reflexivity|reflexivity|apply LI; lia].
    + apply (MT 1 2 23); [destruct c; reflexivity|reflexivity|apply LI; lia].
Qed.
Example C34_trimmed_case : exists r' m' k, MaskAndCalc Z.eqb Z.eqb mord msk (src0 false true) = Ok (r', m', k, 2) /\
  r_rows r' = 2 /\ r_cols r' = 3 /\ GetValue r' 0 1 1 = Ok 12 /\ GetValue r' 1 1 1 = Ok nd.
Proof.
  destruct (C34_trimmed Z Z Z.eqb Z.eqb msk (src0 false true) mord 0 1 0 2 (or_introl msk_full) msk_order (src0_loaded _ _) eq_refl eq_refl eq_refl eq_refl
     (or_introl eq_refl) eq_refl (msk_touches _ _) (msk_box _ _)) as (r' & m' & k & E & R & C & _ & _ & _ & V & U).
  exists r', m', k. split; [exact E|]. split; [exact R|]. split; [exact C|].
  assert (S : sees Z.eqb (src0 false true) msk 0 1 1 12) by (exists (At 0 1); split; [vm_compute; repeat split; discriminate|exists 12; split; reflexivity]).
  split.
  - apply (V 0 1 1 12); [|split; [lia|vm_compute; discriminate]|exact S]. split; [unfold msk; valid|]. split; [unfold in_box; lia|]. exists 12. split; [exact S|reflexivity].
  - apply (U 1 1 1). intros (X & _). revert X. apply invalid_1d. reflexivity.
Qed.
Example C35_hidden_case : exists r' m', MaskAndCalc Z.eqb Z.eqb mord msk (source [nd; 12; 13; 21; 22; 23; 31; 32; 33] 3 3 nd 100 200 false false) = Ok (r', m', false, 2) /\
  GetValue r' 1 1 1 = Ok nd.
Proof. eexists; eexists. vm_compute. split; reflexivity. Qed.

(** ** Refutations *)

(** C34: the value 12 stands in the second column; it is reported in the first. *)
Theorem C34_refuted : exists (m r r' m' : raster Z) ord row col v,
  wf m /\ mask_order Z.eqb m ord /\ loaded r /\ r_maskext r = true /\ r_calc r = true /\ quiet Z.eqb Z.eqb r m /\
  MaskAndCalc Z.eqb Z.eqb ord m r = Ok (r', m', false, 2) /\ geo_of r' = geo_of m /\
  mask_valid Z.eqb m row col /\ sees Z.eqb r m row col 1 v /\ Z.eqb v (r_nodata r) = false /\ GetValue r' row col 1 <> Ok v.
Proof.
  set (m := FromArray (Some [1; 1]) 2 1 nd nd 10 0 0). set (r := source [nd; 12] 2 1 nd 0 0 true true).
  destruct (MaskAndCalc Z.eqb Z.eqb [1; 0]%nat m r) as [p| |] eqn:E; [|vm_compute in E; discriminate|vm_compute in E; discriminate].
  vm_compute in E. injection E as <-.
  eexists m, r, _, _, [1; 0]%nat, 0, 1, 12.
  split; [left; apply full_1d; reflexivity|]. split; [intros n E; vm_compute in E; injection E as <-; apply perm_check; reflexivity|].
  split; [apply source_loaded; reflexivity|]. split; [reflexivity|]. split; [reflexivity|]. split; [left; reflexivity|].
  split; [vm_compute; reflexivity|]. split; [reflexivity|]. split; [valid|].
  split. { exists (At 0 1). split; [vm_compute; repeat split; discriminate|]. exists 12. split; reflexivity. }
  split; [reflexivity|]. vm_compute. discriminate.
Qed.
Print Assumptions C34_refuted.

(** C35: cell (0,0) is masked out, its value 1 is still there. *)
Theorem C35_refuted : exists (m r r' m' : raster Z) ord row col v,
  wf m /\ mask_order Z.eqb m ord /\ loaded r /\ r_maskext r = false /\ r_calc r = false /\ quiet Z.eqb Z.eqb r m /\
  MaskAndCalc Z.eqb Z.eqb ord m r = Ok (r', m', false, 2) /\
  (fst (centre r' row col) == fst (centre m row col) /\ snd (centre r' row col) == snd (centre m row col))%Q /\
  inside m row col /\ ~ mask_valid Z.eqb m row col /\ GetValue r' row col 1 = Ok v /\ Z.eqb v (r_nodata r) = false.
Proof.
  set (m := FromArray (Some [nd; 1; 1; 1; 1; 1]) 3 2 nd nd 10 0 0). set (r := source [1; 2; 3; 4] 2 2 nd 0 0 false false).
  destruct (MaskAndCalc Z.eqb Z.eqb [1; 0; 4; 3; 2]%nat m r) as [p| |] eqn:E; [|vm_compute in E; discriminate|vm_compute in E; discriminate].
  vm_compute in E. injection E as <-.
  eexists m, r, _, _, [1; 0; 4; 3; 2]%nat, 0, 0, 1.
  split; [left; apply full_1d; reflexivity|]. split; [intros n E; vm_compute in E; injection E as <-; apply perm_check; reflexivity|].
  split; [apply source_loaded; reflexivity|]. split; [reflexivity|]. split; [reflexivity|]. split; [left; reflexivity|].
  split; [vm_compute; reflexivity|]. split; [vm_compute; split; reflexivity|]. split; [vm_compute; repeat split; discriminate|]. split; [apply invalid_1d; reflexivity|].
  split; vm_compute; reflexivity.
Qed.
Print Assumptions C35_refuted.

(** C36: one cell, NoData. *)
Theorem C36_refuted : exists (m r r' m' : raster Z) ord,
  wf m /\ mask_order Z.eqb m ord /\ loaded r /\ r_maskext r = false /\ touches Z.eqb r m /\
  MaskAndCalc Z.eqb Z.eqb ord m r = Ok (r', m', false, 2) /\ r_rows r' < 0.
Proof.
  set (m := FromArray (Some [1]) 1 1 nd nd 10 0 0). set (r := source [nd] 1 1 nd 0 0 false true).
  destruct (MaskAndCalc Z.eqb Z.eqb [0]%nat m r) as [p| |] eqn:E; [|vm_compute in E; discriminate|vm_compute in E; discriminate].
  vm_compute in E. injection E as <-.
  eexists m, r, _, _, [0]%nat.
  split; [left; apply full_1d; reflexivity|]. split; [intros n E; vm_compute in E; injection E as <-; apply perm_check; reflexivity|].
  split; [apply source_loaded; reflexivity|]. split; [reflexivity|].
  split. { exists 0, 0. split; [valid|]. vm_compute. intros [H|[H|[H|H]]]; discriminate. }
  split; [vm_compute; reflexivity|]. vm_compute. reflexivity.
Qed.
Print Assumptions C36_refuted.

(** C33 needs its condition on layers: with three layers, a default value and two
    mask cells over one source cell, the second one reads a value that the first
    one has overwritten (data_raster.hpp:3947 writes layer [lyr - 1] where it read
    layer [lyr + 1]). *)
Theorem C33_layers_refuted : exists (m r r' m' : raster Z) ord row col lyr v,
  wf m /\ mask_order Z.eqb m ord /\ loaded r /\ r_nlyrs r = 3 /\ r_maskext r = true /\ r_calc r = false /\ touches Z.eqb r m /\
  MaskAndCalc Z.eqb Z.eqb ord m r = Ok (r', m', true, 2) /\ mask_valid Z.eqb m row col /\ layer_ok r lyr /\
  sees Z.eqb r m row col lyr v /\ GetValue r' row col lyr <> Ok v.
Proof.
  set (m := FromArray (Some [1; 1]) 2 1 nd nd 4 0 0).
  set (r := mkRaster 1 1 0 0 10 nd 1 3 1 3 nd 0 true None (Some [[5; 6; nd]]) None None false false true true : raster Z).
  destruct (MaskAndCalc Z.eqb Z.eqb [0; 1]%nat m r) as [p| |] eqn:E; [|vm_compute in E; discriminate|vm_compute in E; discriminate].
  vm_compute in E. injection E as <-.
  eexists m, r, _, _, [0; 1]%nat, 0, 1, 1, 5.
  split; [left; apply full_1d; reflexivity|]. split; [intros n E; vm_compute in E; injection E as <-; apply perm_check; reflexivity|].
  split. { unfold loaded, storage. cbn. split; [lia|]. split; [lia|]. split; [lia|]. split; [|auto]. exists [[5; 6; nd]]. split; [reflexivity|]. split; [reflexivity|]. repeat constructor. }
  split; [reflexivity|]. split; [reflexivity|]. split; [reflexivity|].
  split. { exists 0, 0. split; [valid|]. vm_compute. intros [H|[H|[H|H]]]; discriminate. }
  split; [vm_compute; reflexivity|]. split; [valid|]. split; [vm_compute; split; discriminate|].
  split. { exists (At 0 0). split; [vm_compute; repeat split; discriminate|]. exists 5. split; reflexivity. }
  vm_compute. discriminate.
Qed.
Print Assumptions C33_layers_refuted.

(** The strips left of the first column of centres and below the last row of
    centres belong to the grid's cells, but masking takes them for outside. *)
Theorem C33_border_refuted : exists (m r r' m' : raster Z) ord row col i j v,
  wf m /\ mask_order Z.eqb m ord /\ loaded r /\ r_maskext r = true /\ r_calc r = false /\
  MaskAndCalc Z.eqb Z.eqb ord m r = Ok (r', m', true, 2) /\ mask_valid Z.eqb m row col /\
  cell_of_grid (geo_of r) i j /\ in_cell (geo_of r) i j (fst (centre m row col)) (snd (centre m row col)) /\
  GetValue r i j 1 = Ok v /\ Z.eqb v (r_nodata r) = false /\ GetValue r' row col 1 = Ok (r_nodata r).
Proof.
  set (m := FromArray (Some [1; 1]) 2 1 nd nd 4 (-4) 0). set (r := source [7] 1 1 nd 0 0 true false).
  destruct (MaskAndCalc Z.eqb Z.eqb [0; 1]%nat m r) as [p| |] eqn:E; [|vm_compute in E; discriminate|vm_compute in E; discriminate].
  vm_compute in E. injection E as <-.
  eexists m, r, _, _, [0; 1]%nat, 0, 0, 0, 0, 7.
  split; [left; apply full_1d; reflexivity|]. split; [intros n E; vm_compute in E; injection E as <-; apply perm_check; reflexivity|].
  split; [apply source_loaded; reflexivity|]. split; [reflexivity|]. split; [reflexivity|].
  split; [vm_compute; reflexivity|]. split; [valid|]. split; [vm_compute; repeat split; discriminate|]. split; [vm_compute; repeat split; discriminate|].
  split; [reflexivity|]. split; [reflexivity|]. vm_compute. reflexivity.
Qed.
Print Assumptions C33_border_refuted.
