(** Masking: whole calls, in the vocabulary of MaskSpec. *)
From Coq Require Import ZArith QArith List Bool Lia Lqa ZifyBool Sorted.
From Verif Require Import Base RasterModel RasterSpec RasterProofs RasterProofs2 RasterProofs3 ListLib CoordModel CoordSpec CoordProofs
  MaskModel MaskSpec SubsetProofs4 MaskProofs MaskProofs2 MaskProofs3 MaskProofs4.
Import ListNotations.
Open Scope Z_scope.
Open Scope outcome_scope.

Section Run.
Context {T M : Type}.
Variable feq : T -> T -> bool.
Variable feqM : M -> M -> bool.
Variables (m : raster M) (r : raster T) (ordm : list nat).
Hypothesis W : wf m.
Hypothesis O : mask_order feqM m ordm.
Hypothesis L : loaded r.
Hypothesis SR : (0 < r_cs r)%Q.
Hypothesis SM : (0 < r_cs m)%Q.

Definition within_of (st : mstate (T := T)) : bool :=
  (k_maxr st - k_minr st + 1 =? r_rows m) && (k_maxc st - k_minc st + 1 =? r_cols m).

Let RP : 0 < r_rows r. Proof. apply L. Qed.
Let CP : 0 < r_cols r. Proof. apply L. Qed.

Lemma run_full : exists m1 ix st, mask_positions feqM ordm m = Ok (m1, (Z.of_nat (length ix), Some (rcs m ix))) /\
  mask_scan feq m1 r (rcs m ix) = Ok st /\ ready feqM m m1 ix /\ scanned feq m r (rcs m ix) st /\
  (k_masked st = 0 -> MaskAndCalc feq feqM ordm m r = Ok (r, m1, true, -1)) /\
  (k_masked st <> 0 -> ix <> [] /\
     let w := within_of st in let u := r_maskext r in let c := r_calc r in
     let e := k_matched st =? Z.of_nat (length ix) in
     MaskAndCalc feq feqM ordm m r =
       mask_finish feq feqM ordm m1 st (r_rows r * r_cols r) (recalc_flag w u c e) (fullsize_flag w u c)
         (rowcol_flag w u) (calc_flag w u c) (validnum_flag w u c e)).
Proof.
  destruct (mask_positions_ok feqM m ordm W O) as (m1 & ix & MP & RD).
  pose proof RD as (G & SO & FO & VAL & NC & PO & SH).
  assert (G1 : r_rows m1 = r_rows m) by (apply (f_equal g_rows) in G; exact G).
  assert (G2 : r_cols m1 = r_cols m) by (apply (f_equal g_cols) in G; exact G).
  destruct (scan_ok feq m1 r (rcs m ix) L) as (st & SC & SD). apply (scanned_geo feq m m1) in SD; [|exact G].
  exists m1, ix, st. split; [exact MP|]. split; [exact SC|]. split; [exact RD|]. split; [exact SD|].
  pose proof SD as (FR & LK & _ & MK & _ & _ & (H & HI & HM & _ & B1 & B2 & B3 & B4) & _ & _ & V3).
  assert (PL : length (rcs m ix) = length ix) by (unfold rcs; apply map_length).
  assert (RUN : MaskAndCalc feq feqM ordm m r =
     if k_masked st =? 0 then Ok (k_r st, m1, true, -1)
     else if within_of st && negb (k_masked st =? Z.of_nat (length ix)) then Throw
     else mask_finish feq feqM ordm m1 st (r_rows r * r_cols r)
            (recalc_flag (within_of st) (r_maskext (k_r st)) (r_calc (k_r st)) (k_matched st =? Z.of_nat (length ix)))
            (fullsize_flag (within_of st) (r_maskext (k_r st)) (r_calc (k_r st)))
            (rowcol_flag (within_of st) (r_maskext (k_r st))) (calc_flag (within_of st) (r_maskext (k_r st)) (r_calc (k_r st)))
            (validnum_flag (within_of st) (r_maskext (k_r st)) (r_calc (k_r st)) (k_matched st =? Z.of_nat (length ix)))).
  { unfold MaskAndCalc. rewrite MP. cbn [obind fst snd]. destruct (Z.of_nat (length ix) <? 0) eqn:Q; [clear - Q; lia|].
    assert (E : (if Z.of_nat (length ix) =? 0 then Ok [] else deref (Some (rcs m ix))) = Ok (rcs m ix)).
    { destruct (Z.of_nat (length ix) =? 0) eqn:Z0; [|reflexivity]. destruct ix; [reflexivity|cbn in Z0; clear - Z0; lia]. }
    rewrite E. cbn [obind]. destruct (Z.of_nat (length (rcs m ix)) <? Z.of_nat (length ix)) eqn:Q2; [rewrite PL in Q2; clear - Q2; lia|].
    rewrite firstn_all2 by (rewrite PL; clear; lia). rewrite SC. cbn [obind]. unfold within_of. rewrite G1, G2. reflexivity. }
  destruct (frame_fields _ _ FR) as (F1&F2&F3&F4&F5&F6&F7&F8&F9&F10&F11). rewrite F10, F11 in RUN.
  split.
  - intros Z0. rewrite RUN, Z0. cbn [Z.eqb]. do 4 f_equal. apply V3. destruct (reached m r (rcs m ix)); [reflexivity|cbn in MK; clear - MK Z0; lia].
  - intros NZ. assert (NX : ix <> []) by (intros ->; cbn in MK; clear - MK NZ; lia). split; [exact NX|]. cbv zeta. rewrite RUN.
    destruct (k_masked st =? 0) eqn:Q; [clear - Q NZ; lia|].
    assert (A : within_of st && negb (k_masked st =? Z.of_nat (length ix)) = false); [|rewrite A; reflexivity].
    destruct (within_of st) eqn:WI; [|reflexivity]. cbn [andb]. apply negb_false_iff, Z.eqb_eq. rewrite MK. f_equal. rewrite <- PL.
    (* everything is reached *)
    assert (MB : forall rc, In rc (rcs m ix) -> 0 <= fst rc < r_rows m /\ 0 <= snd rc < r_cols m).
    { intros [a b] I. apply VAL in I. destruct I as [[I1 I2] _]. split; [exact I1|exact I2]. }
    assert (MR : 0 < r_rows m) by (destruct SH as [[SH _]|[_ SH]]; [congruence|destruct SH as (X & _); clear - X G1; lia]).
    assert (MC : 0 < r_cols m) by (destruct SH as [[SH _]|[_ SH]]; [congruence|destruct SH as (_ & X & _); clear - X G2; lia]).
    unfold within_of in WI. apply andb_true_iff in WI. destruct WI as [WI1 WI2].
    destruct H as [|h H'].
    { cbn in B1, B2. rewrite B1, B2 in WI1. clear - WI1 MR. lia. }
    assert (RI : forall rc, In rc (reached m r (rcs m ix)) -> In rc (rcs m ix) /\ away (src m r rc) = false).
    { intros rc I. apply filter_In in I. destruct I as [I A]. apply negb_true_iff in A. auto. }
    pose proof (fold_hull (h :: H') (r_rows m) (r_cols m) ltac:(discriminate) (fun rc I => MB rc (proj1 (RI rc (HI rc I))))) as HU.
    rewrite <- B1, <- B2, <- B3, <- B4 in HU. destruct HU as (_ & (a1 & I1 & E1) & (a2 & I2 & E2) & (a3 & I3 & E3) & (a4 & I4 & E4)).
    assert (X1 := RI a1 (HI a1 I1)). assert (X2 := RI a2 (HI a2 I2)). assert (X3 := RI a3 (HI a3 I3)). assert (X4 := RI a4 (HI a4 I4)).
    destruct X1 as [Y1 Z1], X2 as [Y2 Z2], X3 as [Y3 Z3], X4 as [Y4 Z4].
    destruct (MB _ Y1) as [M1 _], (MB _ Y2) as [M2 _], (MB _ Y3) as [_ M3], (MB _ Y4) as [_ M4].
    assert (P1 : fst a1 = 0 /\ fst a2 = r_rows m - 1) by (clear - WI1 E1 E2 M1 M2; lia).
    assert (P2 : snd a3 = 0 /\ snd a4 = r_cols m - 1) by (clear - WI2 E3 E4 M3 M4; lia).
    destruct a1 as [u1 v1], a2 as [u2 v2], a3 as [u3 v3], a4 as [u4 v4]. cbn [fst snd] in P1, P2. destruct P1 as [-> ->], P2 as [-> ->].
    assert (ALL : forall rc, In rc (rcs m ix) -> away (src m r rc) = false).
    { intros [a b] I. destruct (MB _ I) as [Q1 Q2]. cbn [fst snd] in Q1, Q2.
      apply (reached_convex m r 0 (r_rows m - 1) 0 (r_cols m - 1) a b v1 v2 u3 u4); auto; clear - Q1 Q2; lia. }
    unfold reached. clear - ALL. induction (rcs m ix) as [|a l IH]; [reflexivity|]. cbn [filter]. rewrite ALL by (left; reflexivity). cbn [negb length].
    f_equal. apply IH. intros. apply ALL. right; assumption.
Qed.

Lemma run_ok : exists m1 ix st, ready feqM m m1 ix /\ scanned feq m r (rcs m ix) st /\
  (k_masked st = 0 -> MaskAndCalc feq feqM ordm m r = Ok (r, m1, true, -1)) /\
  (k_masked st <> 0 -> ix <> [] /\
     let w := within_of st in let u := r_maskext r in let c := r_calc r in
     let e := k_matched st =? Z.of_nat (length ix) in
     MaskAndCalc feq feqM ordm m r =
       mask_finish feq feqM ordm m1 st (r_rows r * r_cols r) (recalc_flag w u c e) (fullsize_flag w u c)
         (rowcol_flag w u) (calc_flag w u c) (validnum_flag w u c e)).
Proof. destruct run_full as (m1 & ix & st & _ & _ & H). exists m1, ix, st. exact H. Qed.

(** Reading back a cell of the scan. *)
Lemma seen_val rc l : layer_ok r l -> aget (vc_vals (seen feq m r rc)) (l - 1) = Ok (ev feq r (src m r rc) l).
Proof.
  clear W O SM SR RP CP L ordm. intros [A B]. unfold seen, cell_vals. cbn [vc_vals]. apply aget_ok; [lia|]. rewrite nth_error_map, zseq_nth by lia. cbn [option_map]. do 2 f_equal. lia.
Qed.

Lemma visited_NoDup m1 ix : ready feqM m m1 ix -> 0 < r_cols m -> one_to_one feqM r m -> NoDup (visited m r (rcs m ix)).
Proof.
  intros (G & SO & FO & VAL & _) MC OO. unfold visited. apply NoDup_filter_map.
  - apply rcs_NoDup; [exact MC|]. apply sorted_NoDup. exact SO.
  - intros [a b] [c d] I J E V. apply VAL in I, J.
    destruct (lies_total r (fst (centre m a b)) (snd (centre m a b)) SR CP RP) as (p & LP).
    pose proof (src_lies m r a b p SR CP RP LP) as QP.
    assert (IP : exists i j, p = At i j).
    { destruct p as [i j| |]; [eauto| |]; exfalso; unfold vis in V; apply vrc_true in V; destruct V as [V1 V2].
      - destruct QP as (i & I1 & QP). rewrite QP in V1, V2. cbn [fst snd] in *. lia.
      - rewrite QP in V1. cbn [fst] in V1. lia. }
    destruct IP as (i & j & ->). destruct QP as [QP _].
    destruct (lies_total r (fst (centre m c d)) (snd (centre m c d)) SR CP RP) as (q & LQ).
    pose proof (src_lies m r c d q SR CP RP LQ) as QQ.
    assert (q = At i j).
    { rewrite E in QP. apply vrc_true in V. destruct V as [V1 V2]. rewrite E, QP in V1, V2. cbn [fst snd] in *. destruct q as [i' j'| |].
      - destruct QQ as [QQ _]. rewrite QQ in QP. congruence.
      - destruct QQ as (i' & I1 & QQ). rewrite QQ in QP. injection QP as -> QP. lia.
      - rewrite QQ in QP. injection QP. lia. }
    subst q. destruct (OO a b c d i j I J LP LQ). congruence.
Qed.

Notation quiet := (MaskSpec.quiet feq feqM r m).

Lemma mcols : 0 < r_cols m /\ 0 < r_rows m.
Proof. destruct W as [F|[(ix & F)|F]]; destruct F as (A & B & _); auto. Qed.

Lemma quiet_steady m1 ix : ready feqM m m1 ix -> quiet -> steady feq m r (rcs m ix).
Proof. intros RD [Q|Q]; [left; exact Q|right]. eapply visited_NoDup; eauto. apply mcols. Qed.

Lemma clean_of m1 ix : ready feqM m m1 ix -> r_nlyrs r <= 2 \/ quiet -> clean feq m r (rcs m ix).
Proof. intros RD [Q|[Q|Q]]; [left; exact Q|right; left; exact Q|right; right]. eapply visited_NoDup; eauto. apply mcols. Qed.

Notation touches := (MaskSpec.touches feqM r m).

Lemma masked_pos m1 ix st : ready feqM m m1 ix -> scanned feq m r (rcs m ix) st -> (k_masked st <> 0 <-> touches).
Proof.
  intros (G & SO & FO & VAL & _) (_&_&_&MK&_). rewrite MK. split.
  - intros N. destruct (reached m r (rcs m ix)) as [|[a b] l] eqn:E; [cbn in N; lia|].
    assert (I : In (a, b) (reached m r (rcs m ix))) by (rewrite E; left; reflexivity). apply filter_In in I. destruct I as [I A].
    exists a, b. split; [apply VAL; exact I|]. intros X. apply away_lies in X; auto. rewrite X in A. discriminate.
  - intros (a & b & V & X). assert (I : In (a, b) (reached m r (rcs m ix))).
    { apply filter_In. split; [apply VAL; exact V|]. apply negb_true_iff, not_true_is_false. intros A. apply away_lies in A; auto. }
    destruct (reached m r (rcs m ix)); [destruct I|cbn; lia].
Qed.

(** Values read from a raster that keeps all mask cells. *)
Lemma borrow_values m1 ix st r5 : ready feqM m m1 ix -> scanned feq m r (rcs m ix) st -> clean feq m r (rcs m ix) ->
  compact r5 ix -> geo_of r5 = geo_of m -> r_nlyrs r5 = r_nlyrs r -> r_nodata r5 = r_nodata r ->
  (forall k c l, nth_error (k_cells st) k = Some c -> layer_ok r l -> read_cell r5 (Z.of_nat k) l = aget (vc_vals c) (l - 1)) ->
  (forall row col lyr v, mask_valid feqM m row col -> layer_ok r lyr -> sees feq r m row col lyr v -> GetValue r5 row col lyr = Ok v) /\
  (forall row col lyr, ~ mask_valid feqM m row col -> GetValue r5 row col lyr = Ok (r_nodata r)).
Proof.
  intros (G & SO & FO & VAL & _) (_&_&CE&_) CL C5 G5 L5 N5 RD5. specialize (CE CL).
  assert (E1 : r_rows r5 = r_rows m) by (apply (f_equal g_rows) in G5; exact G5).
  assert (E2 : r_cols r5 = r_cols m) by (apply (f_equal g_cols) in G5; exact G5).
  split.
  - intros row col lyr v V LO S. apply ev_sees in S; [|exact L|exact SR]. pose proof V as [IN _].
    assert (IN5 : inside r5 row col) by (unfold inside in *; rewrite E1, E2; exact IN).
    assert (LO5 : layer_ok r5 lyr) by (unfold layer_ok in *; rewrite L5; exact LO).
    destruct (GetValue_compact r5 ix row col lyr C5 IN5 LO5) as [(k & _ & KB & KN & E)|(_ & NI & _)].
    + rewrite E. rewrite E2 in KN. replace k with (Z.of_nat (Z.to_nat k)) by lia.
      rewrite (RD5 (Z.to_nat k) (seen feq m r (row, col))); [rewrite seen_val by exact LO; subst v; reflexivity| |exact LO].
      rewrite CE. rewrite nth_error_map. unfold rcs. rewrite nth_error_map, KN. cbn [option_map]. do 2 f_equal.
      destruct IN as [I1 I2]. f_equal; [apply div_rc; exact I2|apply mod_rc; exact I2].
    + exfalso. apply NI. apply VAL in V. apply rcs_In in V; [|apply mcols|exact FO]. rewrite E2. apply V.
  - intros row col lyr NV. rewrite <- N5.
    destruct (ValidateRowCol r5 row col) eqn:VR; [|apply vrc_false in VR; apply GetValue_invalid; tauto].
    destruct (ValidateLayer r5 lyr) eqn:VL; [|apply vl_false in VL; apply GetValue_invalid; tauto].
    apply vrc_true in VR. apply vl_true in VL.
    destruct (GetValue_compact r5 ix row col lyr C5 VR VL) as [(k & _ & KB & KN & E)|(_ & NI & E)]; [|exact E].
    exfalso. apply NV. apply VAL. apply rcs_In; [apply mcols|exact FO|]. unfold inside in *. rewrite E1, E2 in *.
    split; [exact VR|]. apply nth_error_In in KN. exact KN.
Qed.

(** The box of the scan is the rectangle of the matches. *)
Lemma box_of m1 ix st r0 r1 c0 c1 : ready feqM m m1 ix -> scanned feq m r (rcs m ix) st -> quiet -> feq (r_nodata r) (r_nodata r) = true ->
  match_box feq feqM r m r0 r1 c0 c1 ->
  k_minr st = r0 /\ k_maxr st = r1 /\ k_minc st = c0 /\ k_maxc st = c1 /\ matched_box m st.
Proof.
  intros RD (_&_&_&_&_&_&(H & HI & HM & HS & B1 & B2 & B3 & B4)&_) QU ND (MB & T1 & T2 & T3 & T4).
  pose proof (quiet_steady m1 ix RD QU) as ST. specialize (HS ST). pose proof RD as (G & SO & FO & VAL & _).
  assert (HV : forall rc, In rc H <-> mask_valid feqM m (fst rc) (snd rc) /\ matches feq r m (fst rc) (snd rc)).
  { intros [a b]. cbn [fst snd]. rewrite HS, filter_In, (VAL a b), (matches_hit feq r m a b L SR ND). reflexivity. }
  assert (NE : H <> []). { destruct T1 as (b & V1 & M1). assert (I : In (r0, b) H) by (apply HV; auto). destruct H; [destruct I|discriminate]. }
  assert (BD : forall rc, In rc H -> 0 <= fst rc < r_rows m /\ 0 <= snd rc < r_cols m).
  { intros [a b] I. apply HV in I. destruct I as [[[I1 I2] _] _]. split; [exact I1|exact I2]. }
  pose proof (fold_hull H (r_rows m) (r_cols m) NE BD) as HU. rewrite <- B1, <- B2, <- B3, <- B4 in HU.
  destruct HU as (HB & (a1 & I1 & E1) & (a2 & I2 & E2) & (a3 & I3 & E3) & (a4 & I4 & E4)).
  destruct T1 as (b1 & V1 & M1), T2 as (b2 & V2 & M2), T3 as (b3 & V3 & M3), T4 as (b4 & V4 & M4).
  assert (J1 := HB (r0, b1) (proj2 (HV (r0, b1)) (conj V1 M1))). assert (J2 := HB (r1, b2) (proj2 (HV (r1, b2)) (conj V2 M2))).
  assert (J3 := HB (b3, c0) (proj2 (HV (b3, c0)) (conj V3 M3))). assert (J4 := HB (b4, c1) (proj2 (HV (b4, c1)) (conj V4 M4))).
  assert (K1 := proj1 (HV a1) I1). assert (K2 := proj1 (HV a2) I2). assert (K3 := proj1 (HV a3) I3). assert (K4 := proj1 (HV a4) I4).
  assert (Q1 := MB _ _ (proj1 K1) (proj2 K1)). assert (Q2 := MB _ _ (proj1 K2) (proj2 K2)). assert (Q3 := MB _ _ (proj1 K3) (proj2 K3)). assert (Q4 := MB _ _ (proj1 K4) (proj2 K4)).
  cbn [fst snd] in *. assert (D1 := BD _ I1). assert (D2 := BD _ I2). assert (D3 := BD _ I3). assert (D4 := BD _ I4).
  clear - E1 E2 E3 E4 J1 J2 J3 J4 Q1 Q2 Q3 Q4 D1 D2 D3 D4. unfold matched_box.
  split; [lia|]. split; [lia|]. split; [lia|]. split; lia.
Qed.

Lemma box_any m1 ix st : ready feqM m m1 ix -> scanned feq m r (rcs m ix) st ->
  matched_box m st \/ (k_minr st = r_rows m /\ k_maxr st = -1 /\ k_minc st = r_cols m /\ k_maxc st = -1).
Proof.
  intros RD (_&_&_&_&_&_&(H & HI & HM & HS & B1 & B2 & B3 & B4)&_). pose proof RD as (G & SO & FO & VAL & _).
  destruct H as [|h H']; [right; auto|left].
  assert (BD : forall rc, In rc (h :: H') -> 0 <= fst rc < r_rows m /\ 0 <= snd rc < r_cols m).
  { intros [a b] I. apply HI, filter_In in I. destruct I as [I _]. apply VAL in I. destruct I as [[I1 I2] _]. split; [exact I1|exact I2]. }
  pose proof (fold_hull (h :: H') (r_rows m) (r_cols m) ltac:(discriminate) BD) as HU. rewrite <- B1, <- B2, <- B3, <- B4 in HU.
  destruct HU as (HB & (a1 & I1 & E1) & (a2 & I2 & E2) & (a3 & I3 & E3) & (a4 & I4 & E4)).
  assert (D1 := BD _ I1). assert (D2 := BD _ I2). assert (D3 := BD _ I3). assert (D4 := BD _ I4). assert (D5 := HB h (or_introl eq_refl)).
  clear - E1 E2 E3 E4 D1 D2 D3 D4 D5. unfold matched_box. lia.
Qed.

(** No match leaves the initial box. *)
Lemma box_none m1 ix st : ready feqM m m1 ix -> scanned feq m r (rcs m ix) st -> quiet -> feq (r_nodata r) (r_nodata r) = true ->
  (forall row col, mask_valid feqM m row col -> ~ matches feq r m row col) ->
  k_minr st = r_rows m /\ k_maxr st = -1 /\ k_minc st = r_cols m /\ k_maxc st = -1.
Proof.
  intros RD (_&_&_&_&_&_&(H & HI & HM & HS & B1 & B2 & B3 & B4)&_) QU ND NM.
  pose proof (quiet_steady m1 ix RD QU) as ST. specialize (HS ST). pose proof RD as (G & SO & FO & VAL & _).
  destruct H as [|[a b] H']; [auto|]. exfalso.
  assert (I : In (a, b) (filter (hitb feq m r) (rcs m ix))) by (rewrite <- HS; left; reflexivity). apply filter_In in I. destruct I as [I HB].
  apply VAL in I. apply (NM a b I). apply matches_hit; auto.
Qed.

(** Which cells are kept. *)
Lemma kept_iff m1 ix st r0 r1 c0 c1 : ready feqM m m1 ix -> scanned feq m r (rcs m ix) st -> clean feq m r (rcs m ix) ->
  k_minr st = r0 -> k_maxr st = r1 -> k_minc st = c0 -> k_maxc st = c1 ->
  kept feq r st = map (seen feq m r) (filter (fun rc => keepb feq r st (seen feq m r rc)) (rcs m ix)) /\
  (forall row col, In (row, col) (filter (fun rc => keepb feq r st (seen feq m r rc)) (rcs m ix)) <->
     kept_cell feq feqM r m r0 r1 c0 c1 row col).
Proof.
  intros (G & SO & FO & VAL & _) (_&_&CE&_) CL Q1 Q2 Q3 Q4. specialize (CE CL). split.
  - unfold kept. rewrite CE. rewrite map_filter. reflexivity.
  - intros row col. rewrite filter_In, (VAL row col). unfold kept_cell, keepb, outside_box, in_box.
    assert (NL : 1 <= r_nlyrs r) by (destruct L as (_&_&?&_); assumption).
    unfold seen at 1 2 3 4 5. cbn [vc_row vc_col vc_vals fst snd]. rewrite cell_vals_head by exact NL.
    rewrite Q1, Q2, Q3, Q4.
    assert (E : (exists v, sees feq r m row col 1 v /\ feq v (r_nodata r) = false) <-> feq (ev feq r (src m r (row, col)) 1) (r_nodata r) = false).
    { split; [intros (v & S & F); apply ev_sees in S; auto; subst v; exact F|]. intros F. eexists. split; [apply ev_sees; auto|exact F]. }
    rewrite E. rewrite negb_true_iff, !orb_false_iff, !Z.ltb_ge. clear. intuition lia.
Qed.

(** Values after dropping and shifting. *)
Lemma recalc_values m1 ix st r5 w r0 r1 c0 c1 : ready feqM m m1 ix -> scanned feq m r (rcs m ix) st -> clean feq m r (rcs m ix) ->
  k_minr st = r0 -> k_maxr st = r1 -> k_minc st = c0 -> k_maxc st = c1 -> r_cols r5 = w -> c1 - c0 + 1 <= w ->
  r1 - r0 + 1 <= r_rows r5 ->
  compact r5 (map (fun c => (vc_row c - k_minr st) * w + (vc_col c - k_minc st)) (kept feq r st)) ->
  r_nlyrs r5 = r_nlyrs r -> r_nodata r5 = r_nodata r ->
  (forall k c l, nth_error (kept feq r st) k = Some c -> layer_ok r l -> read_cell r5 (Z.of_nat k) l = aget (vc_vals c) (l - 1)) ->
  (forall row col lyr v, kept_cell feq feqM r m r0 r1 c0 c1 row col -> layer_ok r lyr -> sees feq r m row col lyr v ->
     GetValue r5 (row - r0) (col - c0) lyr = Ok v) /\
  (forall row col lyr, ~ kept_cell feq feqM r m r0 r1 c0 c1 (row + r0) (col + c0) -> GetValue r5 row col lyr = Ok (r_nodata r)).
Proof.
  intros RD SD CL Q1 Q2 Q3 Q4 WC WB HB C5 L5 N5 RD5.
  destruct (kept_iff m1 ix st r0 r1 c0 c1 RD SD CL Q1 Q2 Q3 Q4) as [KE KI].
  set (ks := filter (fun rc => keepb feq r st (seen feq m r rc)) (rcs m ix)) in *.
  assert (IXE : map (fun c => (vc_row c - k_minr st) * w + (vc_col c - k_minc st)) (kept feq r st) = map (fun rc => (fst rc - r0) * w + (snd rc - c0)) ks).
  { rewrite KE, map_map. cbn [seen vc_row vc_col]. rewrite Q1, Q3. reflexivity. }
  rewrite IXE in C5. rewrite KE in RD5.
  assert (KB : forall rc, In rc ks -> r0 <= fst rc <= r1 /\ c0 <= snd rc <= c1).
  { intros [a b] I. apply KI in I. destruct I as (_ & B & _). exact B. }
  assert (FIND : forall k row col, 0 <= col < w -> nth_error (map (fun rc => (fst rc - r0) * w + (snd rc - c0)) ks) k = Some (row * w + col) ->
     nth_error ks k = Some (row + r0, col + c0)).
  { intros k row col CB N. rewrite nth_error_map in N. destruct (nth_error ks k) as [[a b]|] eqn:E; [|discriminate]. cbn [option_map fst snd] in N.
    assert (I := KB _ (nth_error_In _ _ E)). cbn [fst snd] in I. f_equal.
    assert (X : (a - r0) * w + (b - c0) = row * w + col) by congruence.
    assert (A1 : a - r0 = row) by (rewrite <- (div_rc (a - r0) (b - c0) w), X by (clear - I WB; lia); apply div_rc; exact CB).
    assert (A2 : b - c0 = col) by (rewrite <- (mod_rc (a - r0) (b - c0) w), X by (clear - I WB; lia); apply mod_rc; exact CB).
    f_equal; clear - A1 A2; lia. }
  split.
  - intros row col lyr v KC LO S. apply ev_sees in S; [|exact L|exact SR]. assert (I := proj2 (KI row col) KC).
    assert (B := KB _ I). cbn [fst snd] in B.
    assert (IN5 : inside r5 (row - r0) (col - c0)) by (unfold inside; rewrite WC; clear - B WB HB; lia).
    assert (LO5 : layer_ok r5 lyr) by (unfold layer_ok in *; rewrite L5; exact LO).
    destruct (GetValue_compact r5 _ _ _ lyr C5 IN5 LO5) as [(k & _ & KB2 & KN & E)|(_ & NI & _)].
    + rewrite E. rewrite WC in KN. apply FIND in KN; [|clear - B WB; lia].
      replace (row - r0 + r0, col - c0 + c0) with (row, col) in KN by (f_equal; clear; lia).
      replace k with (Z.of_nat (Z.to_nat k)) by (clear - KB2; lia).
      rewrite (RD5 (Z.to_nat k) (seen feq m r (row, col))); [rewrite seen_val by exact LO; subst v; reflexivity| |exact LO].
      rewrite nth_error_map, KN. reflexivity.
    + exfalso. apply NI. apply in_map_iff. exists (row, col). rewrite WC. split; [reflexivity|exact I].
  - intros row col lyr NK. rewrite <- N5.
    destruct (ValidateRowCol r5 row col) eqn:VR; [|apply vrc_false in VR; apply GetValue_invalid; tauto].
    destruct (ValidateLayer r5 lyr) eqn:VL; [|apply vl_false in VL; apply GetValue_invalid; tauto].
    apply vrc_true in VR. apply vl_true in VL.
    destruct (GetValue_compact r5 _ row col lyr C5 VR VL) as [(k & _ & KB2 & KN & E)|(_ & NI & E)]; [|exact E].
    exfalso. apply NK. apply KI. rewrite WC in KN. apply FIND in KN; [|destruct VR as [_ VR]; rewrite WC in VR; exact VR]. apply nth_error_In in KN. exact KN.
Qed.

(** Values in a full rectangle. *)
Lemma full_values m1 ix st r5 r0 r1 c0 c1 : ready feqM m m1 ix -> scanned feq m r (rcs m ix) st -> clean feq m r (rcs m ix) ->
  k_minr st = r0 -> k_maxr st = r1 -> k_minc st = c0 -> k_maxc st = c1 -> full_grid r5 -> r_rows r5 = r1 - r0 + 1 -> r_cols r5 = c1 - c0 + 1 ->
  r_nlyrs r5 = r_nlyrs r -> r_nodata r5 = r_nodata r ->
  (forall c l, In c (k_cells st) -> outside_box st c = false -> layer_ok r l ->
     read_cell r5 (box_idx st (k_maxc st - k_minc st + 1) c) l = aget (vc_vals c) (l - 1)) ->
  (forall i l, 0 <= i < (k_maxr st - k_minr st + 1) * (k_maxc st - k_minc st + 1) ->
     (forall c, In c (k_cells st) -> outside_box st c = false -> box_idx st (k_maxc st - k_minc st + 1) c <> i) -> layer_ok r l ->
     read_cell r5 i l = Ok (r_nodata r)) ->
  (forall row col lyr v, mask_valid feqM m row col -> in_box r0 r1 c0 c1 row col -> layer_ok r lyr -> sees feq r m row col lyr v ->
     GetValue r5 (row - r0) (col - c0) lyr = Ok v) /\
  (forall row col lyr, ~ (mask_valid feqM m (row + r0) (col + c0)) -> GetValue r5 row col lyr = Ok (r_nodata r)).
Proof.
  intros (G & SO & FO & VAL & _) (_&_&CE&_) CL Q1 Q2 Q3 Q4 FG R5 C5 L5 N5 V5 U5. specialize (CE CL).
  rewrite Q1, Q2, Q3, Q4 in *. set (w := c1 - c0 + 1) in *.
  assert (OB : forall rc, outside_box st (seen feq m r rc) = false <-> r0 <= fst rc <= r1 /\ c0 <= snd rc <= c1).
  { intros rc. unfold outside_box, seen. cbn [vc_row vc_col]. rewrite Q1, Q2, Q3, Q4. clear. lia. }
  assert (BX : forall rc, box_idx st w (seen feq m r rc) = (fst rc - r0) * w + (snd rc - c0)).
  { intros rc. unfold box_idx, seen. cbn [vc_row vc_col]. rewrite Q1, Q3. clear. lia. }
  split.
  - intros row col lyr v V B LO S. apply ev_sees in S; [|exact L|exact SR].
    assert (IN5 : inside r5 (row - r0) (col - c0)) by (unfold inside, in_box in *; rewrite R5, C5; unfold w; clear - B; lia).
    assert (LO5 : layer_ok r5 lyr) by (unfold layer_ok in *; rewrite L5; exact LO).
    rewrite GetValue_full by assumption. rewrite C5.
    change ((row - r0) * w + (col - c0)) with ((fst (row, col) - r0) * w + (snd (row, col) - c0)). rewrite <- (BX (row, col)). rewrite V5; [rewrite seen_val by exact LO; subst v; reflexivity| | |exact LO].
    + rewrite CE. apply in_map. apply VAL. exact V.
    + apply OB. exact B.
  - intros row col lyr NV. rewrite <- N5.
    destruct (ValidateRowCol r5 row col) eqn:VR; [|apply vrc_false in VR; apply GetValue_invalid; tauto].
    destruct (ValidateLayer r5 lyr) eqn:VL; [|apply vl_false in VL; apply GetValue_invalid; tauto].
    apply vrc_true in VR. apply vl_true in VL. rewrite GetValue_full by assumption. rewrite N5, C5.
    unfold inside in VR. rewrite R5, C5 in VR. apply U5.
    + clear - VR. nia.
    + intros c I OBc E. rewrite CE in I. apply in_map_iff in I. destruct I as ([a b] & <- & I). rewrite BX in E. cbn [fst snd] in E.
      apply OB in OBc. cbn [fst snd] in OBc. assert (WB : c0 <= c1) by (clear - OBc; lia).
      assert (A1 : a - r0 = row) by (rewrite <- (div_rc (a - r0) (b - c0) w), E by (unfold w; clear - OBc; lia); apply div_rc; apply VR).
      assert (A2 : b - c0 = col) by (rewrite <- (mod_rc (a - r0) (b - c0) w), E by (unfold w; clear - OBc; lia); apply mod_rc; apply VR).
      apply NV. apply VAL. replace (row + r0, col + c0) with (a, b) by (f_equal; clear - A1 A2; lia). exact I.
    + unfold layer_ok in *. rewrite <- L5. exact VL.
Qed.
End Run.

Lemma filter_length_le {A} (f : A -> bool) l : (length (filter f l) <= length l)%nat.
Proof. induction l as [|a l IH]; cbn; [lia|]. destruct (f a); cbn; lia. Qed.

Lemma list_eq_dec_nil {A} (l : list A) : l = [] \/ l <> [].
Proof. destruct l; [left; reflexivity|right; discriminate]. Qed.

Lemma filter_all {A} (f : A -> bool) l : length (filter f l) = length l <-> forall x, In x l -> f x = true.
Proof.
  induction l as [|a l IH]; cbn [filter length]; [split; [intros _ x []|reflexivity]|].
  pose proof (filter_length_le f l) as LE. destruct (f a) eqn:E; cbn [length].
  - split; [intros H x [->|I]; [exact E|apply IH; [lia|exact I]]|]. intros H. f_equal. apply IH. intros x I. apply H. right; exact I.
  - split; [lia|]. intros H. rewrite H in E by (left; reflexivity). discriminate.
Qed.

Lemma exact_iff {T M} (feq : T -> T -> bool) (feqM : M -> M -> bool) (m : raster M) (r : raster T) m1 ix st : wf m -> loaded r -> (0 < r_cs r)%Q ->
  ready feqM m m1 ix -> scanned feq m r (rcs m ix) st -> quiet feq feqM r m -> feq (r_nodata r) (r_nodata r) = true ->
  ((k_matched st =? Z.of_nat (length ix)) = true <-> forall row col, mask_valid feqM m row col -> matches feq r m row col).
Proof.
  intros W L SR RD (_&_&_&_&_&_&(H & HI & HM & HS & _)&_) QU ND.
  pose proof (quiet_steady feq feqM m r W L SR m1 ix RD QU) as ST. specialize (HS ST). pose proof RD as (G & SO & FO & VAL & _).
  rewrite HM, HS. assert (PL : length (rcs m ix) = length ix) by (unfold rcs; apply map_length). rewrite <- PL, Z.eqb_eq.
  split.
  - intros E row col V. apply VAL in V. apply matches_hit; auto. apply Nat2Z.inj in E. rewrite filter_all in E. apply E. exact V.
  - intros E. f_equal. apply filter_all. intros [a b] I. apply matches_hit; auto. apply E, VAL. exact I.
Qed.

(** A match is kept. *)
Lemma match_kept {T M} (feq : T -> T -> bool) (feqM : M -> M -> bool) (m : raster M) (r : raster T) r0 r1 c0 c1 : 
  match_box feq feqM r m r0 r1 c0 c1 -> exists row col, kept_cell feq feqM r m r0 r1 c0 c1 row col.
Proof.
  intros (B & (col & V & MA) & _). exists r0, col. split; [exact V|]. split; [apply B; assumption|].
  destruct MA as (i & j & v & LI & GV & F). exists v. split; [|exact F]. exists (At i j). split; [exact LI|]. exists v. split; [exact GV|]. unfold replaced. rewrite F. reflexivity.
Qed.
