(** Masks with subsets: one subset, all subsets, the whole call. *)
From Coq Require Import ZArith QArith List Bool Lia Lqa ZifyBool Sorted.
From Verif Require Import Base RasterModel RasterSpec RasterProofs RasterProofs2 RasterProofs3 ListLib CoordModel CoordSpec CoordProofs
  MaskModel MaskSpec SubsetModel SubsetSpec SubsetProofs MaskProofs MaskProofs2 MaskProofs3 MaskProofs4 MaskProofs5 MaskSubModel MaskSubSpec MaskSubProofs.
Import ListNotations.
Open Scope Z_scope.
Open Scope outcome_scope.

(** ** The member initialized_ is kept *)
Lemma bind_inv {A B} (x : outcome A) (f : A -> outcome B) b : obind x f = Ok b -> exists a, x = Ok a /\ f a = Ok b.
Proof. destruct x; cbn; intros H; try discriminate. eauto. Qed.

Lemma write_init {T} (r r' : raster T) i l v : write_cell r i l v = Ok r' -> r_init r' = r_init r.
Proof.
  unfold write_cell. destruct (r_is2d r); intros H; repeat (apply bind_inv in H; destruct H as (? & ? & H)); injection H as <-; reflexivity.
Qed.
Lemma fold_init {T B} (f : raster T -> B -> outcome (raster T)) : (forall r b r', f r b = Ok r' -> r_init r' = r_init r) ->
  forall l r r', ofold f l r = Ok r' -> r_init r' = r_init r.
Proof.
  intros H. induction l as [|b l IH]; intros r r' E; [injection E as <-; reflexivity|]. cbn [ofold] in E. apply bind_inv in E. destruct E as (r1 & E1 & E2).
  rewrite (IH _ _ E2). eapply H; eauto.
Qed.
Lemma put_init {T} (r r' : raster T) i c : put_cell r i c = Ok r' -> r_init r' = r_init r.
Proof.
  unfold put_cell. destruct (r_is2d r).
  - apply fold_init. intros x [k v] x' H. eapply write_init; eauto.
  - destruct (vc_vals c); [discriminate|]. apply write_init.
Qed.
Lemma fill_init {T} full (st : mstate (T := T)) nc cs r r' : fill_cells full st nc cs r = Ok r' -> r_init r' = r_init r.
Proof.
  unfold fill_cells. apply fold_init. intros x [k c] x' H. cbn [fst snd] in H. destruct full; [|eapply put_init; eauto].
  destruct (outside_box st c); [injection H as <-; reflexivity|]. destruct (_ <? _); [injection H as <-; reflexivity|]. eapply put_init; eauto.
Qed.
Lemma finish_init {T M} (feq : T -> T -> bool) (feqM : M -> M -> bool) ord m1 st old a b c d e r5 m2 kp code :
  mask_finish feq feqM ord m1 st old a b c d e = Ok (r5, m2, kp, code) -> r_init r5 = r_init (k_r st).
Proof.
  unfold mask_finish. intros H. apply bind_inv in H. destruct H as (? & _ & H). apply bind_inv in H. destruct H as (pr & _ & H).
  destruct (negb (ValidateRasterData _)); [discriminate|]. apply bind_inv in H. destruct H as (r4 & H4 & H).
  injection H as <- _ _ _. cbn [set_ncells r_init]. destruct (b && _).
  - injection H4 as <-. reflexivity.
  - apply bind_inv in H4. destruct H4 as (r3 & H3 & H4). apply fill_init in H4. rewrite H4.
    destruct (_ && _); [apply bind_inv in H3; destruct H3 as (? & _ & H3)|]; injection H3 as <-; reflexivity.
Qed.

(** ** Copies *)
Lemma firstn_len {A} (l : list A) n : Z.of_nat (length l) = n -> firstn (Z.to_nat n) l = l.
Proof. intros. apply firstn_all2. lia. Qed.

Lemma omapm_id {A} (f : A -> outcome A) l : (forall x, In x l -> f x = Ok x) -> omapm f l = Ok l.
Proof. intros H. rewrite (omapm_ok f (fun x => x)) by exact H. rewrite map_id. reflexivity. Qed.

Lemma Forall2_length {A B} (R : A -> B -> Prop) l l' : Forall2 R l l' -> length l = length l'.
Proof. intros F. induction F; cbn; congruence. Qed.

Lemma tight_ne cs r0 r1 c0 c1 : tight cs r0 r1 c0 c1 -> cs <> [].
Proof. intros (_ & (rc & I & _) & _). destruct cs; [destruct I|discriminate]. Qed.

Lemma copy_ok {M D} (m : raster M) (s : subset D) cs lyrs : describes m s cs -> data_fits s -> CopySubset lyrs s = Ok (relayered lyrs s).
Proof.
  intros (g & lp & li & (Eg & Elp & Eli & En & Ll & Li) & F2 & _ & _ & TI) (D1 & D2).
  assert (NE : (1 <= length g)%nat). { apply Forall2_length in F2. apply tight_ne in TI. destruct cs; [congruence|]. cbn in F2. lia. }
  unfold CopySubset, relayered. rewrite Eg, Elp, Eli. unfold copy1d at 1 2.
  replace (Z.of_nat (length g) <? s_n s) with false by lia. cbn [obind].
  unfold copy2d at 1. cbn [deref obind]. replace (Z.of_nat (length lp) <? Z.max (s_n s) 1) with false by lia.
  rewrite (firstn_len lp), (firstn_len g), (firstn_len li) by lia. rewrite omapm_id by reflexivity. cbn [obind].
  replace (Z.of_nat (length li) <? s_n s) with false by lia. cbn [obind].
  assert (E1 : (if isnull (s_data s) then Ok None else copy1d (s_n s) (s_data s)) = Ok (s_data s)).
  { destruct (s_data s) as [d|]; [|reflexivity]. specialize (D1 d eq_refl). cbn [isnull copy1d].
    replace (Z.of_nat (length d) <? s_n s) with false by lia. rewrite firstn_len by exact D1. reflexivity. }
  rewrite E1. cbn [obind].
  assert (E2 : (if isnull (s_data2 s) then Ok None else copy2d (copy_row (s_lyrs s)) (s_n s) (s_data2 s)) = Ok (s_data2 s)).
  { destruct (s_data2 s) as [d|]; [|reflexivity]. destruct (D2 d eq_refl) as (L1 & L2 & L3). cbn [isnull]. unfold copy2d. cbn [deref obind].
    replace (Z.of_nat (length d) <? Z.max (s_n s) 1) with false by lia. rewrite firstn_len by exact L2.
    rewrite omapm_id; [reflexivity|]. intros row I. rewrite Forall_forall in L3. specialize (L3 row I). unfold copy_row.
    replace (Z.of_nat (length row) <? Z.max (s_lyrs s) 1) with false by lia. rewrite firstn_len by exact L3. reflexivity. }
  rewrite E2. reflexivity.
Qed.

(** ** The window *)
Lemma window_fold cs : forall sr er sc ec,
  fold_left (fun w c => let '(sr, er, sc, ec) := w in let '(row, col, _) := c in
    (if row <? sr then row else sr, if er <? row then row else er, if col <? sc then col else sc, if ec <? col then col else ec))
    cs (sr, er, sc, ec) =
  (fold_left Z.min (map fst (map (@fst (Z * Z) Z) cs)) sr, fold_left Z.max (map fst (map (@fst (Z * Z) Z) cs)) er,
   fold_left Z.min (map snd (map (@fst (Z * Z) Z) cs)) sc, fold_left Z.max (map snd (map (@fst (Z * Z) Z) cs)) ec).
Proof.
  induction cs as [|[[row col] g] cs IH]; intros sr er sc ec; [reflexivity|]. cbn [fold_left map fst snd]. rewrite IH.
  assert (A : (if row <? sr then row else sr) = Z.min sr row) by (destruct (row <? sr) eqn:E; lia).
  assert (B : (if er <? row then row else er) = Z.max er row) by (destruct (er <? row) eqn:E; lia).
  assert (C : (if col <? sc then col else sc) = Z.min sc col) by (destruct (col <? sc) eqn:E; lia).
  assert (D : (if ec <? col then col else ec) = Z.max ec col) by (destruct (ec <? col) eqn:E; lia).
  rewrite A, B, C, D. reflexivity.
Qed.

Section One.
Context {T M D : Type}.
Variable feq : T -> T -> bool.
Variables (m : raster M) (r : raster T) (a b : Z).
Hypothesis US : usable r.
Hypothesis IN : r_init r = true.
Hypothesis CS : (0 < r_cs r)%Q.
Hypothesis HK : header_known (geo_of r).
Hypothesis ND : feq (r_nodata r) (r_nodata r) = true.
Hypothesis GEO : forall row col, (fst (centre r (row - a) (col - b)) == fst (centre m row col) /\
                                  snd (centre r (row - a) (col - b)) == snd (centre m row col))%Q.
Notation mv := (moved a b).

(** Index and place of a cell found. *)
Definition finds (rc : Z * Z) (f : Z * Z * Z) : Prop :=
  fst f = mv rc /\ indexes r (snd f) (mv rc) /\ number r (snd f) = Ok (fst (mv rc) * r_cols r + snd (mv rc)).

Lemma found_ok (s : subset D) ps gs cs : s_global s = Some gs -> s_n s = Z.of_nat (length gs) -> Forall2 (fun gi rc => aget ps gi = Ok rc) gs cs ->
  exists fs, found_cells feq m ps r s = Ok fs /\ chosen (fun rc => shown feq r (mv rc)) finds cs fs.
Proof.
  intros G N F. unfold found_cells. rewrite G, N.
  assert (E : forall acc, ofold (fun acc i => let* gl := deref (Some gs) in let* gi := aget gl i in let* rc := aget ps gi in
       let* c := check_cell feq m r rc in Ok match c with Some c => acc ++ [c] | None => acc end) (zseq (Z.of_nat (length gs))) acc =
     ofold (fun acc gi => let* rc := aget ps gi in let* c := check_cell feq m r rc in Ok match c with Some c => acc ++ [c] | None => acc end) gs acc).
  { intros acc. cbn [deref obind]. apply (ofold_elems gs). }
  rewrite E. clear E G N.
  assert (K : forall acc, exists fs, ofold (fun acc gi => let* rc := aget ps gi in let* c := check_cell feq m r rc in
       Ok match c with Some c => acc ++ [c] | None => acc end) gs acc = Ok (acc ++ fs) /\ chosen (fun rc => shown feq r (mv rc)) finds cs fs).
  { induction F as [|gi rc gs cs A F IH]; intros acc.
    - exists []. rewrite app_nil_r. split; [reflexivity|constructor].
    - cbn [ofold]. rewrite A. cbn [obind].
      destruct (check_cases feq m r a b US IN CS HK ND GEO rc) as [(S & g & IX & NU & C)|(S & C)]; rewrite C; cbn [obind].
      + destruct (IH (acc ++ [(mv rc, g)])) as (fs & E1 & E2). exists ((mv rc, g) :: fs). rewrite E1, <- app_assoc. split; [reflexivity|].
        apply chosen_take; auto. split; [reflexivity|]. auto.
      + destruct (IH acc) as (fs & E1 & E2). exists fs. split; [exact E1|]. apply chosen_drop; auto. }
  destruct (K []) as (fs & E1 & E2). exists fs. auto.
Qed.

Lemma finds_cells cs fs : chosen (fun rc => shown feq r (mv rc)) finds cs fs ->
  chosen (fun rc => shown feq r (mv rc)) (fun rc rc' => rc' = mv rc) cs (map fst fs) /\ Forall2 (indexes r) (map snd fs) (map fst fs) /\
  Forall (fun f => number r (snd f) = Ok (fst (fst f) * r_cols r + snd (fst f))) fs.
Proof.
  clear. intros C. induction C as [|rc f l l' K (R1 & R2 & R3) C (I1 & I2 & I3)|rc l l' K C (I1 & I2 & I3)].
  - repeat split; constructor.
  - rewrite <- R1 in R2, R3. split; [apply chosen_take; auto|]. split; constructor; auto.
  - split; [apply chosen_drop; auto|]. auto.
Qed.

Lemma rebuild_ok (s : subset D) fs : (s_alloc s = true -> exists p l, s_lpos s = Some (p :: l)) -> fs <> [] ->
  Forall2 (indexes r) (map snd fs) (map fst fs) -> Forall (fun f => number r (snd f) = Ok (fst (fst f) * r_cols r + snd (fst f))) fs ->
  exists s', rebuild_subset r s fs = Ok s' /\ describes r s' (map fst fs) /\ s_lyrs s' = r_nlyrs r /\ s_usable s' = s_usable s /\
    s_data s' = None /\ s_data2 s' = None.
Proof.
  clear - US. intros AL NE F2 FN. unfold rebuild_subset, found_window. rewrite window_fold.
  assert (IX : forall rc, In rc (map fst fs) -> inside r (fst rc) (snd rc)).
  { clear - F2. intros rc I. revert I. induction F2 as [|g c gl cl H F2 IH]; intros I; [destruct I|]. destruct I as [<-|I]; [apply H|apply IH, I]. }
  assert (HU : hull (map fst fs) (fold_left Z.min (map fst (map fst fs)) (r_rows r)) (fold_left Z.max (map fst (map fst fs)) (-1))
     (fold_left Z.min (map snd (map fst fs)) (r_cols r)) (fold_left Z.max (map snd (map fst fs)) (-1))).
  { apply fold_hull; [destruct fs; [congruence|discriminate]|exact IX]. }
  set (sr := fold_left Z.min (map fst (map fst fs)) (r_rows r)) in *. set (er := fold_left Z.max (map fst (map fst fs)) (-1)) in *.
  set (sc := fold_left Z.min (map snd (map fst fs)) (r_cols r)) in *. set (ec := fold_left Z.max (map snd (map fst fs)) (-1)) in *.
  assert (RE : (if s_alloc s then release2d (s_lpos s) else Ok tt) = Ok tt).
  { destruct (s_alloc s); [|reflexivity]. destruct (AL eq_refl) as (p & l & ->). reflexivity. }
  rewrite RE. cbn [obind].
  set (loc := fun f : Z * Z * Z => (fst (fst f) - sr, snd (fst f) - sc, (fst (fst f) - sr) * (ec - sc + 1) + (snd (fst f) - sc))).
  rewrite (omapm_ok _ loc).
  2:{ intros f I. unfold local_cell. change (if isnull (r_pos r) || isnull (r_posidx r) then Ok (snd f) else let* ix := deref (r_posidx r) in aget ix (snd f)) with (number r (snd f)).
      rewrite Forall_forall in FN. rewrite (FN f I). cbn [obind]. destruct (IX (fst f) (in_map fst _ _ I)) as [I1 I2].
      replace (r_cols r =? 0) with false by (clear - I2; lia).
      assert (P0 : 0 <= fst (fst f) * r_cols r + snd (fst f)) by (clear - I1 I2; nia). assert (P1 : 0 < r_cols r) by (clear - I2; lia).
      rewrite Z.quot_div_nonneg, Z.rem_mod_nonneg by assumption. rewrite div_rc, mod_rc by exact I2. reflexivity. }
  cbn [obind]. eexists. split; [reflexivity|]. split; [|cbn; auto].
  exists (map snd fs), (map fst (map loc fs)), (map snd (map loc fs)). cbn [s_srow s_erow s_scol s_ecol].
  split. { unfold subset_of. cbn. rewrite !map_length. repeat split. }
  split; [exact F2|]. split; [rewrite !map_map; reflexivity|]. split; [rewrite !map_map; reflexivity|]. exact HU.
Qed.
End One.

(** ** All subsets *)
Lemma subsets_ok {T M D} feq (m : raster M) ps (r : raster T) recalc (subs : list (Z * subset D)) (keep : Z * subset D -> Prop) (rel : Z * subset D -> subset D -> Prop) :
  (forall ks, In ks subs -> (keep ks /\ exists s', check_subset feq m ps r recalc (snd ks) = Ok (Some s') /\ rel ks s') \/
                            (~ keep ks /\ check_subset feq m ps r recalc (snd ks) = Ok None)) ->
  exists subs', check_subsets feq m ps r recalc subs = Ok subs' /\ chosen keep (fun ks ks' => fst ks' = fst ks /\ rel ks (snd ks')) subs subs'.
Proof.
  intros H. unfold check_subsets.
  assert (K : forall acc, exists subs', ofold (fun acc ks => let* o := check_subset feq m ps r recalc (snd ks) in
      Ok match o with Some s => acc ++ [(fst ks, s)] | None => acc end) subs acc = Ok (acc ++ subs') /\
      chosen keep (fun ks ks' => fst ks' = fst ks /\ rel ks (snd ks')) subs subs').
  { induction subs as [|ks subs IH]; intros acc; [exists []; rewrite app_nil_r; split; [reflexivity|constructor]|].
    cbn [ofold]. destruct (H ks (or_introl eq_refl)) as [(K & s' & E & R)|(K & E)]; rewrite E; cbn [obind].
    - destruct (IH (fun x I => H x (or_intror I)) (acc ++ [(fst ks, s')])) as (l & E1 & E2). exists ((fst ks, s') :: l). rewrite E1, <- app_assoc. split; [reflexivity|].
      apply chosen_take; auto.
    - destruct (IH (fun x I => H x (or_intror I)) acc) as (l & E1 & E2). exists l. split; [exact E1|]. apply chosen_drop; auto. }
  destruct (K []) as (l & E & C). exists l. auto.
Qed.

(** ** The whole call *)
Lemma compact_positions {M} (feqM : M -> M -> bool) ord (m : raster M) ix : compact m ix ->
  mask_positions feqM ord m = Ok (m, (Z.of_nat (length ix), Some (rcs m ix))).
Proof.
  intros (R1 & C1 & L1 & N1 & N2 & S & CA & PI & PO & SO & FO). unfold mask_positions, GetRasterPositionData. rewrite CA. cbn [obind].
  rewrite PO. cbn [isnull negb]. rewrite N2. reflexivity.
Qed.

Section Call.
Context {T M D : Type}.
Variable feq : T -> T -> bool.
Variable feqM : M -> M -> bool.
Variables (m : raster M) (r : raster T) (ord : list nat) (ix : list Z).
Hypothesis CM : compact m ix.
Hypothesis O : mask_order feqM m ord.
Hypothesis L : loaded r.
Hypothesis SR : (0 < r_cs r)%Q.
Hypothesis SM : (0 < r_cs m)%Q.

Let W : wf m. Proof. right. left. exists ix. exact CM. Qed.

Lemma run_compact : touches feqM r m -> exists st, mask_scan feq m r (rcs m ix) = Ok st /\ ready feqM m m ix /\ scanned feq m r (rcs m ix) st /\
  ix <> [] /\
  let w := within_of m st in let u := r_maskext r in let c := r_calc r in
  let e := k_matched st =? Z.of_nat (length ix) in
  MaskAndCalc feq feqM ord m r =
     mask_finish feq feqM ord m st (r_rows r * r_cols r) (recalc_flag w u c e) (fullsize_flag w u c)
         (rowcol_flag w u) (calc_flag w u c) (validnum_flag w u c e).
Proof.
  intros TO. destruct (run_full feq feqM m r ord W O L SR SM) as (m1 & ix1 & st & MP & SC & RD & SD & _ & RUN).
  rewrite (compact_positions feqM ord m ix CM) in MP. injection MP as <- LE RE.
  assert (E : ix1 = ix).
  { pose proof RD as (_&_&_&_&_&_&[[X _]|[_ X]]).
    - subst ix1. symmetry. apply length_zero_iff_nil. clear - LE. cbn in LE. lia.
    - pose proof X as (_&_&_&_&_&_&_&PI&_). pose proof CM as (_&_&_&_&_&_&_&PI'&_). congruence. }
  subst ix1. exists st. split; [exact SC|]. split; [exact RD|]. split; [exact SD|]. apply RUN. eapply masked_pos; eauto.
Qed.

Lemma indexes_aget gi rc : indexes m gi rc -> aget (rcs m ix) gi = Ok rc.
Proof.
  intros (I & B & P & _). destruct (GetPosition_compact m ix _ _ CM I) as [(g & P' & B' & N)|(P' & _)].
  - rewrite P in P'. injection P' as <-. apply aget_ok; [lia|]. unfold rcs. rewrite nth_error_map, N. cbn [option_map]. destruct I as [_ I2].
    rewrite div_rc, mod_rc by exact I2. destruct rc; reflexivity.
  - rewrite P in P'. injection P' as ->. lia.
Qed.

(** The call, once the masked raster is known. *)
Lemma subs_call st (r5 : raster T) m' kp (msubs rsubs : list (Z * subset D)) cells :
  mask_scan feq m r (rcs m ix) = Ok st -> MaskAndCalc feq feqM ord m r = Ok (r5, m', kp, 2) -> mask_subsets m msubs cells ->
  MaskAndCalcSubs feq feqM ord m msubs r rsubs =
    let* subs := check_subsets feq m (rcs m ix) r5
       (negb (k_matched st =? Z.of_nat (length ix)) && rowcol_flag (within_of m st) (r_maskext r))
       (map (fun ks => (fst ks, relayered (r_nlyrs r) (snd ks))) msubs) in
    Ok (r5, m', kp, 2, subs).
Proof.
  intros SC E [NE MS]. unfold MaskAndCalcSubs. rewrite E. cbn [obind]. change (2 =? -1) with false. cbn [orb].
  destruct msubs as [|k0 ms] eqn:EM; [congruence|]. rewrite <- EM in *. clear EM.
  rewrite (compact_positions feqM ord m ix CM). cbn [obind fst snd].
  assert (X : (if Z.of_nat (length ix) =? 0 then Ok [] else deref (Some (rcs m ix))) = Ok (rcs m ix)).
  { destruct ix; reflexivity. }
  rewrite X. cbn [obind]. rewrite firstn_all2 by (unfold rcs; rewrite map_length; clear; lia). rewrite SC. cbn [obind].
  rewrite (omapm_ok _ (fun ks => (fst ks, relayered (r_nlyrs r) (snd ks)))).
  - cbn [obind]. unfold within_of. reflexivity.
  - intros [k s] I. destruct (MS k s I) as [DS DF]. cbn [fst snd]. rewrite (copy_ok m s (cells k)) by assumption. reflexivity.
Qed.

(** Subsets kept as they are. *)
Lemma subs_kept r5 a b (msubs : list (Z * subset D)) cells : usable r5 -> r_init r5 = true -> (0 < r_cs r5)%Q -> header_known (geo_of r5) ->
  feq (r_nodata r5) (r_nodata r5) = true ->
  (forall row col, (fst (centre r5 (row - a) (col - b)) == fst (centre m row col) /\ snd (centre r5 (row - a) (col - b)) == snd (centre m row col))%Q) ->
  mask_subsets m msubs cells ->
  exists subs', check_subsets feq m (rcs m ix) r5 false (map (fun ks => (fst ks, relayered (r_nlyrs r) (snd ks))) msubs) = Ok subs' /\
    chosen (fun ks => exists rc, In rc (cells (fst ks)) /\ shown feq r5 (moved a b rc))
      (fun ks ks' => ks' = (fst ks, relayered (r_nlyrs r) (snd ks))) msubs subs'.
Proof.
  intros US IN CS HK ND GEO [_ MS].
  destruct (subsets_ok feq m (rcs m ix) r5 false (map (fun ks => (fst ks, relayered (r_nlyrs r) (snd ks))) msubs)
     (fun ks => exists rc, In rc (cells (fst ks)) /\ shown feq r5 (moved a b rc)) (fun ks s' => s' = snd ks)) as (subs' & E & C).
  - intros ks I. apply in_map_iff in I. destruct I as ([k s] & <- & I). cbn [fst snd]. destruct (MS k s I) as [(g & lp & li & (Eg & Elp & Eli & En & Ll & Li) & F2 & _ & _ & TI) _].
    destruct (found_ok feq m r5 a b US IN CS HK ND GEO (relayered (r_nlyrs r) s) (rcs m ix) g (cells k)) as (fs & EF & CF); [exact Eg|exact En| |].
    { clear - F2 CM. induction F2 as [|gi rc gl cl H F2 IH]; constructor; [apply indexes_aget; exact H|exact IH]. }
    unfold check_subset. rewrite EF. cbn [obind]. pose proof (chosen_nil_inv _ _ _ _ CF) as NI. destruct fs as [|f fs].
    + right. split; [|reflexivity]. intros (rc & I1 & I2). apply (proj1 NI eq_refl rc I1 I2).
    + left. split; [|eexists; split; reflexivity]. destruct (chosen_In _ _ _ _ CF) as [CI _]. destruct (CI f (or_introl eq_refl)) as (rc & I1 & I2 & _). exists rc. auto.
  - exists subs'. split; [exact E|]. clear - C. remember (map _ msubs) as l eqn:EL. revert msubs EL.
    induction C as [|ks ks' l l' K (R1 & R2) C IH|ks l l' K C IH]; intros ms EL; destruct ms as [|[k s] ms]; try discriminate; [constructor| |].
    + injection EL as -> ->. cbn [fst snd] in *. apply chosen_take; [exact K| |apply IH; reflexivity]. destruct ks' as [k' s']. cbn in R1, R2. subst. reflexivity.
    + injection EL as -> ->. cbn [fst snd] in *. apply chosen_drop; [exact K|]. apply IH. reflexivity.
Qed.

(** Subsets built anew. *)
Lemma subs_rebuilt r5 a b (msubs : list (Z * subset D)) cells : usable r5 -> r_init r5 = true -> (0 < r_cs r5)%Q -> header_known (geo_of r5) ->
  feq (r_nodata r5) (r_nodata r5) = true ->
  (forall row col, (fst (centre r5 (row - a) (col - b)) == fst (centre m row col) /\ snd (centre r5 (row - a) (col - b)) == snd (centre m row col))%Q) ->
  mask_subsets m msubs cells ->
  exists subs', check_subsets feq m (rcs m ix) r5 true (map (fun ks => (fst ks, relayered (r_nlyrs r) (snd ks))) msubs) = Ok subs' /\
    chosen (fun ks => exists rc, In rc (cells (fst ks)) /\ shown feq r5 (moved a b rc))
      (fun ks ks' => fst ks' = fst ks /\ exists cs', chosen (fun rc => shown feq r5 (moved a b rc)) (fun rc rc' => rc' = moved a b rc) (cells (fst ks)) cs' /\
         describes r5 (snd ks') cs' /\ s_lyrs (snd ks') = r_nlyrs r5 /\ s_usable (snd ks') = s_usable (snd ks) /\
         s_data (snd ks') = None /\ s_data2 (snd ks') = None) msubs subs'.
Proof.
  intros US IN CS HK ND GEO [_ MS].
  destruct (subsets_ok feq m (rcs m ix) r5 true (map (fun ks => (fst ks, relayered (r_nlyrs r) (snd ks))) msubs)
     (fun ks => exists rc, In rc (cells (fst ks)) /\ shown feq r5 (moved a b rc))
     (fun ks s' => exists cs', chosen (fun rc => shown feq r5 (moved a b rc)) (fun rc rc' => rc' = moved a b rc) (cells (fst ks)) cs' /\
         describes r5 s' cs' /\ s_lyrs s' = r_nlyrs r5 /\ s_usable s' = s_usable (snd ks) /\ s_data s' = None /\ s_data2 s' = None)) as (subs' & E & C).
  - intros ks I. apply in_map_iff in I. destruct I as ([k s] & <- & I). cbn [fst snd]. destruct (MS k s I) as [(g & lp & li & (Eg & Elp & Eli & En & Ll & Li) & F2 & _ & _ & TI) _].
    destruct (found_ok feq m r5 a b US IN CS HK ND GEO (relayered (r_nlyrs r) s) (rcs m ix) g (cells k)) as (fs & EF & CF); [exact Eg|exact En| |].
    { clear - F2 CM. induction F2 as [|gi rc gl cl H F2 IH]; constructor; [apply indexes_aget; exact H|exact IH]. }
    unfold check_subset. rewrite EF. cbn [obind]. pose proof (chosen_nil_inv _ _ _ _ CF) as NI. destruct fs as [|f fs'] eqn:EFS.
    + right. split; [|reflexivity]. intros (rc & I1 & I2). apply (proj1 NI eq_refl rc I1 I2).
    + rewrite <- EFS in *. destruct (chosen_In _ _ _ _ CF) as [CI _]. 
      left. split. { destruct (CI f) as (rc & I1 & I2 & _); [rewrite EFS; left; reflexivity|]. exists rc. auto. }
      destruct (finds_cells feq r5 a b _ _ CF) as (C1 & C2 & C3).
      destruct (rebuild_ok r5 (relayered (r_nlyrs r) s) fs) as (s' & E' & DS & R1 & R2 & R3 & R4); auto.
      * intros _. cbn [relayered s_lpos]. rewrite Elp. apply tight_ne in TI. apply Forall2_length in F2. destruct lp as [|p lp]; [|eauto]. cbn in Ll.
        destruct (cells k); [congruence|cbn in F2; lia].
      * rewrite EFS. discriminate.
      * rewrite E'. cbn [obind]. exists s'. split; [reflexivity|]. exists (map fst fs). auto 10.
  - exists subs'. split; [exact E|]. clear - C. remember (map _ msubs) as l eqn:EL. revert msubs EL.
    induction C as [|ks ks' l l' K (R1 & R2) C IH|ks l l' K C IH]; intros ms EL; destruct ms as [|[k s] ms]; try discriminate; [constructor| |].
    + injection EL as -> ->. cbn [fst snd] in *. apply chosen_take; [exact K| |apply IH; reflexivity]. cbn [fst snd]. auto.
    + injection EL as -> ->. cbn [fst snd] in *. apply chosen_drop; [exact K|]. apply IH. reflexivity.
Qed.
End Call.
