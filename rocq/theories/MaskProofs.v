(** Masking: the scan over the mask's cells. *)
From Coq Require Import ZArith QArith List Bool Lia ZifyBool.
From Verif Require Import Base RasterModel RasterSpec RasterProofs ListLib CoordModel CoordSpec MaskModel MaskSpec.
Import ListNotations.
Open Scope Z_scope.
Open Scope outcome_scope.

Section Loaded.
Context {T : Type}.
Implicit Types r : raster T.

Definition gv r (p : Z * Z) (lyr : Z) : T :=
  match GetValue r (fst p) (snd p) lyr with Ok v => v | _ => r_nodata r end.

Lemma plain_get r n row col lyr : storage r n -> r_pos r = None -> r_posidx r = None -> inside r row col -> layer_ok r lyr ->
  GetValue r row col lyr = read_cell r (row * r_cols r + col) lyr.
Proof.
  intros HS HP HI Hin Hl. unfold GetValue.
  apply vrc_true in Hin. apply vl_true in Hl. rewrite Hin, Hl, (storage_valid _ _ HS). cbn [negb orb].
  rewrite HP, HI. cbn [isnull negb orb]. rewrite andb_false_r. auto.
Qed.
Lemma loaded_direct r row col lyr : loaded r -> inside r row col -> layer_ok r lyr ->
  GetValue r row col lyr = read_cell r (row * r_cols r + col) lyr.
Proof. intros (_&_&_&HS&HP&HI) Hin Hl. eapply plain_get; eauto. Qed.

Lemma loaded_get r row col lyr : loaded r -> GetValue r row col lyr = Ok (gv r (row, col) lyr).
Proof.
  intros L. unfold gv. cbn [fst snd].
  assert (exists v, GetValue r row col lyr = Ok v) as (v & ->); [|reflexivity].
  destruct (ValidateRowCol r row col) eqn:A; [|eexists; apply GetValue_invalid; apply vrc_false in A; tauto].
  destruct (ValidateLayer r lyr) eqn:B; [|eexists; apply GetValue_invalid; apply vl_false in B; tauto].
  apply vrc_true in A. apply vl_true in B. rewrite loaded_direct by assumption.
  destruct L as (R&C&_&HS&_). eapply read_storage; eauto. destruct A. nia.
Qed.

Lemma frame_fields r r' : same_frame r r' -> r_rows r' = r_rows r /\ r_cols r' = r_cols r /\ r_nlyrs r' = r_nlyrs r /\
  r_nodata r' = r_nodata r /\ r_default r' = r_default r /\ r_is2d r' = r_is2d r /\ geo_of r' = geo_of r /\
  r_pos r' = r_pos r /\ r_posidx r' = r_posidx r /\ r_calc r' = r_calc r /\ r_maskext r' = r_maskext r.
Proof. unfold same_frame. intros ->. cbn. repeat (split; [reflexivity|]). reflexivity. Qed.

Lemma frame_refl r : same_frame r r.
Proof. destruct r; reflexivity. Qed.
Lemma frame_trans r r' r'' : same_frame r r' -> same_frame r' r'' -> same_frame r r''.
Proof. unfold same_frame. intros -> ->. reflexivity. Qed.

Lemma gv_invalid r p lyr : ~ inside r (fst p) (snd p) \/ ~ layer_ok r lyr -> gv r p lyr = r_nodata r.
Proof. intros H. unfold gv. rewrite GetValue_invalid by tauto. reflexivity. Qed.

(** Writing one cell of a loaded raster. *)
Lemma loaded_set r row col v lyr : loaded r -> exists r',
  SetValue r row col v lyr = Ok r' /\ same_frame r r' /\ loaded r' /\
  (forall p l, p <> (row, col) \/ l <> lyr -> gv r' p l = gv r p l) /\
  (inside r row col -> layer_ok r lyr -> gv r' (row, col) lyr = v) /\
  (~ (inside r row col /\ layer_ok r lyr) -> r' = r).
Proof.
  intros L. pose proof L as (R&C&LY&HS&HP&HI). unfold SetValue. rewrite (storage_valid _ _ HS). cbn [negb orb].
  destruct (ValidateRowCol r row col) eqn:A.
  2:{ cbn [negb orb]. exists r. split; [reflexivity|]. split; [apply frame_refl|]. split; [exact L|]. split; [reflexivity|].
      apply vrc_false in A. split; [intros; contradiction|reflexivity]. }
  destruct (ValidateLayer r lyr) eqn:B; cbn [negb orb].
  2:{ exists r. split; [reflexivity|]. split; [apply frame_refl|]. split; [exact L|]. split; [reflexivity|].
      apply vl_false in B. split; [intros; contradiction|reflexivity]. }
  pose proof A as A'. apply vrc_true in A. apply vl_true in B.
  unfold GetPosition. rewrite (storage_valid _ _ HS), A', HP, HI. cbn [negb orb isnull]. rewrite orb_true_r. cbn [orb obind].
  assert (I : 0 <= r_cols r * row + col < r_rows r * r_cols r) by (destruct A; nia).
  destruct (r_cols r * row + col =? -1) eqn:E; [lia|].
  destruct (write_ok r _ (r_cols r * row + col) lyr v HS I B) as (r' & W & F & S & RD).
  exists r'. split; [exact W|]. split; [exact F|].
  pose proof (frame_fields _ _ F) as (F1&F2&F3&F4&F5&F6&F7&F8&F9&_).
  assert (L' : loaded r'). { unfold loaded. rewrite F1, F2, F3, F8, F9. repeat (split; [assumption|]). assumption. }
  split; [exact L'|]. split; [|split; [|tauto]].
  - intros [pr pc] l N. unfold gv. cbn [fst snd]. rewrite F4.
    destruct (ValidateRowCol r pr pc) eqn:A2; [|apply vrc_false in A2; rewrite !GetValue_invalid by (unfold inside in *; rewrite ?F1, ?F2; tauto); rewrite F4; reflexivity].
    destruct (ValidateLayer r l) eqn:B2; [|apply vl_false in B2; rewrite !GetValue_invalid by (unfold layer_ok in *; rewrite ?F3; tauto); rewrite F4; reflexivity].
    apply vrc_true in A2. apply vl_true in B2.
    rewrite !loaded_direct by (try assumption; unfold inside, layer_ok in *; rewrite ?F1, ?F2, ?F3; assumption).
    rewrite F2, RD by exact B2.
    destruct ((pr * r_cols r + pc =? r_cols r * row + col) && (l =? lyr)) eqn:Q; [|reflexivity]. exfalso.
    destruct A as [A3 A4], A2 as [A5 A6]. assert (pr = row) by nia. assert (pc = col) by nia. subst. destruct N; [congruence|lia].
  - intros _ _. unfold gv. cbn [fst snd]. rewrite loaded_direct by (try assumption; unfold inside, layer_ok in *; rewrite ?F1, ?F2, ?F3; assumption).
    rewrite F2, RD by exact B. replace (row * r_cols r + col) with (r_cols r * row + col) by lia. rewrite !Z.eqb_refl. reflexivity.
Qed.
End Loaded.

Section Scan.
Context {T M : Type}.
Variable feq : T -> T -> bool.
Implicit Types r : raster T.
Implicit Types m : raster M.

Definition src m r (rc : Z * Z) : Z * Z :=
  let xy := GetCoordinateByRowCol (geo_of m) (fst rc) (snd rc) in
  GetPositionByCoordinate (geo_of r) (fst xy) (snd xy).
Definition away (p : Z * Z) : bool := (fst p =? -1) || (snd p =? -1).
Definition rep r := replaced feq r.
Definition ev r (p : Z * Z) (lyr : Z) : T := if away p then r_nodata r else rep r (gv r p lyr).

Lemma rep_idem r v : rep r (rep r v) = rep r v.
Proof.
  unfold rep, replaced. destruct (feq v (r_nodata r)) eqn:A; [|rewrite A; reflexivity].
  destruct (feq (r_default r) (r_nodata r)) eqn:B; [rewrite A; reflexivity|rewrite B; reflexivity].
Qed.

Lemma rep_id r v : no_default feq r -> rep r v = v.
Proof. unfold no_default, rep, replaced. intros ->. destruct (feq v (r_nodata r)); reflexivity. Qed.

Lemma rep_frame r r' v : same_frame r r' -> rep r' v = rep r v.
Proof. intros F. apply frame_fields in F. destruct F as (_&_&_&A&B&_). unfold rep, replaced. rewrite A, B. reflexivity. Qed.

Lemma zseq_split n : 0 < n -> zseq n = 0 :: map (fun k => k + 1) (zseq (n - 1)).
Proof.
  clear. intros H. replace n with (1 + (n - 1)) at 1 by lia. rewrite zseq_app by lia. cbn [app]. change (zseq 1) with [0]. cbn [app]. f_equal.
  apply map_ext. intros. lia.
Qed.

(** Layers 2 .. n of one cell. *)
Lemma mask_layers_ok r pr pc : loaded r -> exists r',
  mask_layers feq r pr pc = Ok (r', map (fun k => rep r (gv r (pr, pc) (k + 2))) (zseq (r_nlyrs r - 1))) /\
  same_frame r r' /\ loaded r' /\
  (forall p l, p <> (pr, pc) -> gv r' p l = gv r p l) /\
  (r_nlyrs r <= 2 \/ no_default feq r -> r' = r).
Proof.
  intros L. unfold mask_layers.
  assert (G : forall n, 0 <= n <= r_nlyrs r - 1 -> exists r',
    ofold (fun (st : raster T * list T) k =>
           let lyr := k + 1 in
           let* v := GetValue (fst st) pr pc (lyr + 1) in
           if feq v (r_nodata r) && negb (feq (r_default r) (r_nodata r)) then
             let* r' := SetValue (fst st) pr pc (r_default r) (lyr - 1) in
             Ok (r', snd st ++ [r_default r])
           else Ok (fst st, snd st ++ [v])) (zseq n) (r, []) =
      Ok (r', map (fun k => rep r (gv r (pr, pc) (k + 2))) (zseq n)) /\
    same_frame r r' /\ loaded r' /\ (forall p l, p <> (pr, pc) \/ n <= l -> gv r' p l = gv r p l) /\
    (r_nlyrs r <= 2 \/ no_default feq r -> r' = r)).
  { intros n [N0 N1]. revert N1. pattern n. apply natlike_ind; [| |exact N0].
    - intros _. exists r. rewrite zseq_0 by lia. split; [reflexivity|]. split; [apply frame_refl|]. split; [exact L|]. split; reflexivity.
    - intros k K0 IH K1. destruct IH as (r1 & E & F & L1 & V & ID); [lia|]. rewrite <- Z.add_1_r in *.
      rewrite zseq_S by lia. rewrite ofold_app, E. cbn [obind ofold]. cbn [fst snd].
      rewrite loaded_get by exact L1. cbn [obind]. rewrite map_app. cbn [map].
      replace (k + 1 + 1) with (k + 2) by lia. rewrite V by (right; lia).
      set (v := gv r (pr, pc) (k + 2)).
      destruct (feq v (r_nodata r) && negb (feq (r_default r) (r_nodata r))) eqn:S.
      + apply andb_true_iff in S. destruct S as [S1 S2]. apply negb_true_iff in S2.
        destruct (loaded_set r1 pr pc (r_default r) (k + 1 - 1) L1) as (r2 & W & F2 & L2 & V2 & _ & I2).
        rewrite W. cbn [obind]. exists r2. split; [do 2 f_equal; f_equal; unfold rep, replaced; rewrite S1, S2; reflexivity|].
        split; [eapply frame_trans; eauto|]. split; [exact L2|]. split.
        * intros p l D. rewrite V2, V; [reflexivity| |]; destruct D; [left; assumption|right; lia|left; assumption|right; lia].
        * intros [D|D]; [|unfold no_default in D; congruence].
          assert (r1 = r) by (apply ID; left; exact D). subst r1. apply I2. intros [_ [Q _]]. lia.
      + cbn [obind]. exists r1. split; [do 2 f_equal; f_equal; unfold rep, replaced; destruct (feq v (r_nodata r)); [|reflexivity]; destruct (feq (r_default r) (r_nodata r)); [reflexivity|discriminate]|].
        split; [exact F|]. split; [exact L1|]. split; [|exact ID]. intros p l D. apply V. destruct D; [left; assumption|right; lia]. }
  pose proof L as (_&_&LY&_). destruct (G (r_nlyrs r - 1)) as (r' & E & F & L' & V & ID); [lia|].
  exists r'. split; [exact E|]. split; [exact F|]. split; [exact L'|]. split; [|exact ID]. intros. apply V. left; assumption.
Qed.

Definition cell_vals r (p : Z * Z) : list T := map (fun k => ev r p (k + 1)) (zseq (r_nlyrs r)).
Definition seen m r (rc : Z * Z) : vcell T := mkVcell (fst rc) (snd rc) (cell_vals r (src m r rc)).
Definition reached m r (ps : list (Z * Z)) : list (Z * Z) := filter (fun rc => negb (away (src m r rc))) ps.
Definition hitb m r (rc : Z * Z) : bool := negb (away (src m r rc)) && negb (feq (gv r (src m r rc) 1) (r_nodata r)).
Definition vis r (p : Z * Z) : bool := ValidateRowCol r (fst p) (snd p).
Definition visited m r ps := filter (vis r) (map (src m r) ps).
Lemma gv_not_vis r p l : vis r p = false -> gv r p l = r_nodata r.
Proof. clear. intros H. apply gv_invalid. left. apply vrc_false in H. exact H. Qed.
Lemma vis_away r p : vis r p = true -> away p = false.
Proof. clear. unfold vis, away. intros H. apply vrc_true in H. destruct H. lia. Qed.

(** When the values read do not depend on what was read before. *)
Definition clean m r ps : Prop := r_nlyrs r <= 2 \/ no_default feq r \/ NoDup (visited m r ps).
Definition steady m r ps : Prop := no_default feq r \/ NoDup (visited m r ps).

Lemma many_layers r : loaded r -> many r = negb (r_nlyrs r =? 1).
Proof.
  intros (_&_&LY&HS&_). unfold many, storage in *. destruct (r_is2d r); cbn [andb]; [lia|]. destruct HS as [-> _]. reflexivity.
Qed.

Lemma cell_vals_head r p : 1 <= r_nlyrs r -> cell_vals r p = ev r p 1 :: map (fun k => ev r p (k + 2)) (zseq (r_nlyrs r - 1)).
Proof.
  intros H. unfold cell_vals. rewrite zseq_split by lia. cbn [map]. f_equal. rewrite map_map. apply map_ext. intros. f_equal. lia.
Qed.

Lemma repeat_map {A B} (x : B) (l : list A) : map (fun _ => x) l = repeat x (length l).
Proof. induction l; cbn; congruence. Qed.

(** State after the cells [ps]. *)
Definition scanned m r (ps : list (Z * Z)) (st : mstate) : Prop :=
  same_frame r (k_r st) /\ loaded (k_r st) /\
  (clean m r ps -> k_cells st = map (seen m r) ps) /\
  k_masked st = Z.of_nat (length (reached m r ps)) /\
  map (fun c => (vc_row c, vc_col c)) (k_cells st) = ps /\
  Forall (fun c => Z.of_nat (length (vc_vals c)) = r_nlyrs r) (k_cells st) /\
  (exists H, incl H (reached m r ps) /\ k_matched st = Z.of_nat (length H) /\
     (steady m r ps -> H = filter (hitb m r) ps) /\
     k_minr st = fold_left Z.min (map fst H) (r_rows m) /\ k_maxr st = fold_left Z.max (map fst H) (-1) /\
     k_minc st = fold_left Z.min (map snd H) (r_cols m) /\ k_maxc st = fold_left Z.max (map snd H) (-1)) /\
  (forall p l, no_default feq r \/ ~ In p (visited m r ps) -> gv (k_r st) p l = gv r p l) /\
  (forall p l, r_nlyrs r <= 2 -> rep r (gv (k_r st) p l) = rep r (gv r p l)) /\
  (reached m r ps = [] -> k_r st = r).

Lemma reached_snoc m r ps rc : reached m r (ps ++ [rc]) = reached m r ps ++ (if away (src m r rc) then [] else [rc]).
Proof. unfold reached. rewrite filter_app. cbn [filter]. destruct (away (src m r rc)); reflexivity. Qed.

Lemma NoDup_app_l {A} (a b : list A) : NoDup (a ++ b) -> NoDup a.
Proof. clear. induction a; cbn; intros H; [constructor|]. inversion H; subst. constructor; [|auto]. intros I. apply H2, in_or_app. left; exact I. Qed.

Lemma NoDup_app_last {A} (a : list A) x : NoDup (a ++ [x]) -> ~ In x a.
Proof. clear. intros H I. apply in_split in I. destruct I as (l1 & l2 & ->). rewrite <- app_assoc in H. cbn in H.
  apply NoDup_remove_2 in H. apply H. rewrite in_app_iff, in_app_iff. right; right; left; reflexivity. Qed.

Lemma scan_step m r ps st rc : loaded r -> scanned m r ps st ->
  exists st', mask_cell feq m st rc = Ok st' /\ scanned m r (ps ++ [rc]) st'.
Proof.
  intros L (F & L1 & CE & MK & PO & LE & (H & HI & HM & HS & B1 & B2 & B3 & B4) & V1 & V2 & V3).
  pose proof (frame_fields _ _ F) as (F1&F2&F3&F4&F5&F6&F7&F8&F9&_). pose proof L as (_&_&LY&_).
  pose proof (many_layers r L) as ML.
  unfold mask_cell. cbv zeta. rewrite F7. fold (src m r rc). set (p := src m r rc) in *.
  assert (MLk : many (k_r st) = many r) by (unfold many; rewrite F6, F3; reflexivity). rewrite MLk.
  change ((fst p =? -1) || (snd p =? -1)) with (away p).
  assert (VS : visited m r (ps ++ [rc]) = visited m r ps ++ (if vis r p then [p] else [])).
  { unfold visited. rewrite map_app, filter_app. reflexivity. }
  assert (KV : forall q l, vis r q = false -> gv (k_r st) q l = gv r q l).
  { intros q l V. rewrite !gv_not_vis; [exact F4|exact V|]. unfold vis, ValidateRowCol. rewrite F1, F2. exact V. }
  assert (RS : reached m r (ps ++ [rc]) = reached m r ps ++ (if away p then [] else [rc])) by (rewrite reached_snoc; reflexivity).
  assert (CL : clean m r (ps ++ [rc]) -> clean m r ps).
  { unfold clean. rewrite VS. intros [A|[A|A]]; [auto|auto|right; right; eapply NoDup_app_l; exact A]. }
  assert (SL : steady m r (ps ++ [rc]) -> steady m r ps).
  { unfold steady. rewrite VS. intros [A|A]; [auto|right; eapply NoDup_app_l; exact A]. }
  destruct (away p) eqn:AW.
  - eexists. split; [reflexivity|]. unfold scanned. cbn [k_r k_cells k_minr k_maxr k_minc k_maxc k_masked k_matched].
    split; [exact F|]. split; [exact L1|]. rewrite RS, app_nil_r.
    assert (VALS : r_nodata (k_r st) :: (if many r then repeat (r_nodata (k_r st)) (Z.to_nat (r_nlyrs (k_r st) - 1)) else []) = cell_vals r p).
    { rewrite F4, F3, cell_vals_head by lia. unfold ev. rewrite AW. f_equal. rewrite (repeat_map (r_nodata r)), zseq_length.
      rewrite ML. destruct (r_nlyrs r =? 1) eqn:E1; cbn [negb]; [|reflexivity]. replace (Z.to_nat (r_nlyrs r - 1)) with O by lia. reflexivity. }
    split. { intros C. rewrite map_app, CE by auto. cbn [map]. do 2 f_equal. unfold seen. fold p. f_equal. exact VALS. }
    split; [exact MK|]. split; [rewrite map_app, PO; cbn; destruct rc; reflexivity|].
    split. { apply Forall_app. split; [exact LE|]. constructor; [|constructor]. cbn [vc_vals]. rewrite VALS. unfold cell_vals. rewrite map_length, zseq_length. lia. }
    split. { exists H. split; [exact HI|]. split; [exact HM|]. split; [|auto]. intros S. rewrite HS by auto. rewrite filter_app. cbn [filter].
      unfold hitb at 3. fold p. rewrite AW. cbn [negb andb]. rewrite app_nil_r. reflexivity. }
    rewrite VS. destruct (vis r p) eqn:VP; [apply vis_away in VP; congruence|]. rewrite app_nil_r.
    split; [exact V1|]. split; [exact V2|exact V3].
  - rewrite loaded_get by exact L1. cbn [obind]. replace (fst p, snd p) with p by (destruct p; reflexivity).
    set (v := gv (k_r st) p 1). rewrite F4, F5.
    set (hit := negb (feq v (r_nodata r))).
    assert (SUB : (if feq v (r_nodata r) && negb (feq (r_default r) (r_nodata r)) then r_default r else v) = rep r v).
    { unfold rep, replaced. destruct (feq v (r_nodata r)), (feq (r_default r) (r_nodata r)); reflexivity. }
    rewrite SUB.
    assert (ST1 : exists r1, (if feq v (r_nodata r) && negb (feq (r_default r) (r_nodata r)) then SetValue (k_r st) (fst p) (snd p) (rep r v) 1 else Ok (k_r st)) = Ok r1 /\
       same_frame (k_r st) r1 /\ loaded r1 /\ (forall q l, q <> p \/ l <> 1 -> gv r1 q l = gv (k_r st) q l) /\
       (no_default feq r -> r1 = k_r st) /\ rep r (gv r1 p 1) = rep r v).
    { destruct (feq v (r_nodata r) && negb (feq (r_default r) (r_nodata r))) eqn:SB.
      - destruct (loaded_set (k_r st) (fst p) (snd p) (rep r v) 1 L1) as (r1 & W & Fr & Lr & Vr & Vs & Vn).
        replace (fst p, snd p) with p in * by (destruct p; reflexivity).
        exists r1. split; [exact W|]. split; [exact Fr|]. split; [exact Lr|]. split; [exact Vr|].
        split. { intros N. unfold no_default in N. rewrite N in SB. rewrite andb_false_r in SB. discriminate. }
        destruct (ValidateRowCol (k_r st) (fst p) (snd p)) eqn:VR.
        + apply vrc_true in VR. rewrite Vs by (try exact VR; unfold layer_ok; lia). apply rep_idem.
        + apply vrc_false in VR. rewrite Vn by tauto. reflexivity.
      - exists (k_r st). split; [reflexivity|]. split; [apply frame_refl|]. split; [exact L1|]. split; [reflexivity|]. split; reflexivity. }
    destruct ST1 as (r1 & W1 & Fr1 & Lr1 & Vr1 & Nr1 & Pr1). rewrite W1. cbn [obind].
    pose proof (frame_trans _ _ _ F Fr1) as FF1. pose proof (frame_fields _ _ FF1) as (G1&G2&G3&G4&G5&G6&G7&G8&G9&_).
    destruct (mask_layers_ok r1 (fst p) (snd p) Lr1) as (r2 & W2 & Fr2 & Lr2 & Vr2 & Ir2).
    replace (fst p, snd p) with p in * by (destruct p; reflexivity).
    set (rest := map (fun k => rep r (gv (k_r st) p (k + 2))) (zseq (r_nlyrs r - 1))).
    assert (RE : map (fun k => rep r1 (gv r1 p (k + 2))) (zseq (r_nlyrs r1 - 1)) = rest).
    { unfold rest. rewrite G3. apply map_ext_in. intros k K. apply zseq_In in K. rewrite (rep_frame r r1) by exact FF1. rewrite Vr1 by (right; lia). reflexivity. }
    rewrite RE in W2.
    assert (ND : no_default feq r1 <-> no_default feq r) by (unfold no_default; rewrite G4, G5; reflexivity).
    (* the state after the layers *)
    assert (ST2 : exists r3, (if many r then mask_layers feq r1 (fst p) (snd p) else Ok (r1, [])) = Ok (r3, rest) /\
       same_frame r r3 /\ loaded r3 /\ (forall q l, q <> p -> gv r3 q l = gv (k_r st) q l) /\ (no_default feq r -> r3 = k_r st) /\
       (r_nlyrs r <= 2 -> r3 = r1)).
    { rewrite ML. destruct (r_nlyrs r =? 1) eqn:E1; cbn [negb].
      - exists r1. split; [unfold rest; rewrite (zseq_0 (r_nlyrs r - 1)) by lia; reflexivity|]. split; [exact FF1|]. split; [exact Lr1|].
        split; [intros; apply Vr1; left; assumption|]. split; [exact Nr1|reflexivity].
      - exists r2. split; [exact W2|]. split; [eapply frame_trans; eauto|]. split; [exact Lr2|].
        split; [intros q l D; rewrite Vr2 by exact D; apply Vr1; left; exact D|].
        split; [intros N; rewrite Ir2 by (right; apply ND; exact N); apply Nr1; exact N|].
        intros D. apply Ir2. left. lia. }
    destruct ST2 as (r3 & W3 & Fr3 & Lr3 & Vr3 & Nr3 & Er3). rewrite W3. cbn [obind fst snd].
    eexists. split; [reflexivity|]. unfold scanned. cbn [k_r k_cells k_minr k_maxr k_minc k_maxc k_masked k_matched].
    split; [exact Fr3|]. split; [exact Lr3|]. rewrite RS.
    assert (LV : Z.of_nat (length (rep r v :: rest)) = r_nlyrs r).
    { unfold rest. cbn [length]. rewrite map_length, zseq_length. lia. }
    split.
    { intros C. rewrite map_app, CE by auto. cbn [map]. do 2 f_equal. unfold seen. fold p. f_equal.
      rewrite cell_vals_head by lia. unfold ev. rewrite AW.
      assert (Q : forall l, rep r (gv (k_r st) p l) = rep r (gv r p l)).
      { intros l. destruct C as [C|[C|C]]; [apply V2; exact C|f_equal; apply V1; left; exact C|].
        f_equal. destruct (vis r p) eqn:VP; [|apply KV; exact VP]. apply V1. right. rewrite VS in C. apply NoDup_app_last in C. exact C. }
      f_equal; [apply Q|]. unfold rest. apply map_ext. intros k. apply Q. }
    split; [rewrite MK, app_length; cbn [length]; lia|]. split; [rewrite map_app, PO; cbn; destruct rc; reflexivity|].
    split; [apply Forall_app; split; [exact LE|constructor; [exact LV|constructor]]|].
    assert (HE : steady m r (ps ++ [rc]) -> hit = hitb m r rc).
    { intros [S|S]; unfold hitb, hit, v; fold p; rewrite AW; cbn [negb andb].
      - rewrite V1 by (left; exact S). reflexivity.
      - destruct (vis r p) eqn:VP; [|rewrite KV by exact VP; reflexivity].
        rewrite V1; [reflexivity|]. right. rewrite VS in S. apply NoDup_app_last in S. exact S. }
    split.
    { destruct hit eqn:EH.
      - exists (H ++ [rc]). split. { intros a A. apply in_app_iff in A. apply in_app_iff. destruct A as [A|A]; [left; apply HI; exact A|right; exact A]. }
        split; [rewrite app_length; cbn [length]; lia|].
        split. { intros S. rewrite HS by auto. rewrite filter_app. cbn [filter]. rewrite <- HE by exact S. reflexivity. }
        rewrite !map_app, !fold_left_app. cbn [map fold_left andb]. rewrite <- B1, <- B2, <- B3, <- B4.
        split; [destruct (fst rc <? k_minr st) eqn:Q; lia|]. split; [destruct (k_maxr st <? fst rc) eqn:Q; lia|].
        split; [destruct (snd rc <? k_minc st) eqn:Q; lia|destruct (k_maxc st <? snd rc) eqn:Q; lia].
      - exists H. split. { intros a A. apply in_app_iff. left. apply HI; exact A. }
        split; [lia|]. split. { intros S. rewrite HS by auto. rewrite filter_app. cbn [filter]. rewrite <- HE by exact S. rewrite app_nil_r. reflexivity. }
        cbn [andb]. auto. }
    rewrite VS. split.
    { intros q l D. destruct D as [D|D].
      - rewrite Nr3 by exact D. apply V1. left; exact D.
      - destruct (vis r q) eqn:VQ.
        + rewrite Vr3; [apply V1; right; intros I; apply D, in_or_app; left; exact I|].
          intros ->. rewrite VQ in D. apply D, in_or_app. right; left; reflexivity.
        + pose proof (frame_fields _ _ Fr3) as (K1&K2&_&K4&_).
          rewrite !gv_not_vis; [exact K4|exact VQ|]. unfold vis, ValidateRowCol. rewrite K1, K2. exact VQ. }
    split.
    { intros q l D. rewrite Er3 by exact D.
      assert (DE : q = p \/ q <> p) by (destruct q as [q1 q2], p as [p1 p2]; destruct (Z.eq_dec q1 p1), (Z.eq_dec q2 p2); [left; congruence|right; congruence..]).
      destruct DE as [->|NE].
      - destruct (Z.eq_dec l 1) as [->|NL]; [rewrite Pr1; apply V2; exact D|]. rewrite Vr1 by (right; exact NL). apply V2; exact D.
      - rewrite Vr1 by (left; exact NE). apply V2; exact D. }
    intros E. apply app_eq_nil in E. destruct E; discriminate.
Qed.

Lemma scan_ok m r ps : loaded r -> exists st, mask_scan feq m r ps = Ok st /\ scanned m r ps st.
Proof.
  intros L. unfold mask_scan. induction ps as [|rc ps IH] using rev_ind.
  - eexists. split; [reflexivity|]. unfold scanned. cbn [k_r k_cells k_minr k_maxr k_minc k_maxc k_masked k_matched map reached filter length].
    split; [apply frame_refl|]. split; [exact L|]. split; [reflexivity|]. split; [reflexivity|]. split; [reflexivity|]. split; [constructor|].
    split. { exists []. split; [intros a []|]. split; [reflexivity|]. split; [reflexivity|]. cbn. auto. }
    split; [reflexivity|]. split; reflexivity.
  - destruct IH as (st & E & S). rewrite ofold_app, E. cbn [obind ofold].
    destruct (scan_step m r ps st rc L S) as (st' & E' & S'). rewrite E'. cbn [obind]. eauto.
Qed.
End Scan.
