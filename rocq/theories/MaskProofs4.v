(** Masking: the rectangle of the matches and the three ways to finish. *)
From Coq Require Import ZArith QArith List Bool Lia Lqa ZifyBool Sorted.
From Verif Require Import Base RasterModel RasterSpec RasterProofs RasterProofs2 RasterProofs3 ListLib CoordModel CoordSpec CoordProofs
  MaskModel MaskSpec SubsetProofs4 MaskProofs MaskProofs2 MaskProofs3.
Import ListNotations.
Open Scope Z_scope.
Open Scope outcome_scope.

Lemma fold_min_spec : forall l a, fold_left Z.min l a <= a /\ (forall x, In x l -> fold_left Z.min l a <= x) /\
  (fold_left Z.min l a = a \/ In (fold_left Z.min l a) l).
Proof.
  induction l as [|b l IH]; intros a; cbn [fold_left]; [split; [lia|]; split; [intros ? []|left; reflexivity]|].
  destruct (IH (Z.min a b)) as (A & B & C). split; [lia|]. split.
  - intros x [->|H]; [lia|apply B; exact H].
  - destruct C as [C|C]; [|right; right; exact C]. destruct (Z.min_spec a b) as [[? E]|[? E]]; rewrite E in *; [left; exact C|right; left; lia].
Qed.
Lemma fold_max_spec : forall l a, a <= fold_left Z.max l a /\ (forall x, In x l -> x <= fold_left Z.max l a) /\
  (fold_left Z.max l a = a \/ In (fold_left Z.max l a) l).
Proof.
  induction l as [|b l IH]; intros a; cbn [fold_left]; [split; [lia|]; split; [intros ? []|left; reflexivity]|].
  destruct (IH (Z.max a b)) as (A & B & C). split; [lia|]. split.
  - intros x [->|H]; [lia|apply B; exact H].
  - destruct C as [C|C]; [|right; right; exact C]. destruct (Z.max_spec a b) as [[? E]|[? E]]; rewrite E in *; [right; left; lia|left; exact C].
Qed.

(** [r0 .. r1] x [c0 .. c1] is the smallest rectangle around [H]. *)
Definition hull (H : list (Z * Z)) (r0 r1 c0 c1 : Z) : Prop :=
  (forall rc, In rc H -> r0 <= fst rc <= r1 /\ c0 <= snd rc <= c1) /\
  (exists rc, In rc H /\ fst rc = r0) /\ (exists rc, In rc H /\ fst rc = r1) /\
  (exists rc, In rc H /\ snd rc = c0) /\ (exists rc, In rc H /\ snd rc = c1).

Lemma fold_hull H R C : H <> [] -> (forall rc, In rc H -> 0 <= fst rc < R /\ 0 <= snd rc < C) ->
  hull H (fold_left Z.min (map fst H) R) (fold_left Z.max (map fst H) (-1)) (fold_left Z.min (map snd H) C) (fold_left Z.max (map snd H) (-1)).
Proof.
  intros NE B.
  destruct (fold_min_spec (map fst H) R) as (A1 & A2 & A3). destruct (fold_max_spec (map fst H) (-1)) as (B1 & B2 & B3).
  destruct (fold_min_spec (map snd H) C) as (C1 & C2 & C3). destruct (fold_max_spec (map snd H) (-1)) as (D1 & D2 & D3).
  assert (IN : exists rc, In rc H) by (destruct H as [|h H]; [congruence|exists h; left; reflexivity]). destruct IN as (h & IH).
  pose proof (B h IH) as [Bh1 Bh2].
  assert (F1 : forall rc, In rc H -> In (fst rc) (map fst H)) by (intros; apply in_map; assumption).
  assert (F2 : forall rc, In rc H -> In (snd rc) (map snd H)) by (intros; apply in_map; assumption).
  split. { intros rc I. pose proof (A2 _ (F1 _ I)). pose proof (B2 _ (F1 _ I)). pose proof (C2 _ (F2 _ I)). pose proof (D2 _ (F2 _ I)). lia. }
  pose proof (A2 _ (F1 _ IH)). pose proof (B2 _ (F1 _ IH)). pose proof (C2 _ (F2 _ IH)). pose proof (D2 _ (F2 _ IH)).
  split. { destruct A3 as [A3|A3]; [lia|]. apply in_map_iff in A3. destruct A3 as (rc & E & I). eauto. }
  split. { destruct B3 as [B3|B3]; [lia|]. apply in_map_iff in B3. destruct B3 as (rc & E & I). eauto. }
  split. { destruct C3 as [C3|C3]; [lia|]. apply in_map_iff in C3. destruct C3 as (rc & E & I). eauto. }
  destruct D3 as [D3|D3]; [lia|]. apply in_map_iff in D3. destruct D3 as (rc & E & I). eauto.
Qed.

Lemma div_rc a b w : 0 <= b < w -> (a * w + b) / w = a.
Proof. intros. symmetry. apply Z.div_unique with b; lia. Qed.
Lemma mod_rc a b w : 0 <= b < w -> (a * w + b) mod w = b.
Proof. intros. symmetry. apply Z.mod_unique with a; lia. Qed.

Section Main.
Context {T M : Type}.
Variable feq : T -> T -> bool.
Variable feqM : M -> M -> bool.
Implicit Types r : raster T.
Implicit Types m : raster M.

Lemma away_lies m r row col : (0 < r_cs r)%Q -> 0 < r_cols r -> 0 < r_rows r ->
  away (src m r (row, col)) = true <-> lies r (fst (centre m row col)) (snd (centre m row col)) Away.
Proof.
  clear. intros S C R. destruct (lies_total r (fst (centre m row col)) (snd (centre m row col)) S C R) as (p & LP).
  pose proof (src_lies m r row col p S C R LP) as Q. split.
  - intros A. destruct p as [i j| |]; [exfalso|exfalso|exact LP].
    + destruct Q as [Q [I J]]. rewrite Q in A. unfold away in A. cbn [fst snd] in A. lia.
    + destruct Q as (i & I & Q). rewrite Q in A. unfold away in A. cbn [fst snd] in A. lia.
  - intros L. apply lies_away in L. unfold src. cbn [fst snd].
    change (GetCoordinateByRowCol (geo_of m) row col) with (centre m row col). rewrite L. reflexivity.
Qed.

(** Cells between reached cells are reached. *)
Lemma reached_convex m r (rt rb cl cr row col c1 c2 r1 r2 : Z) : (0 < r_cs r)%Q -> (0 < r_cs m)%Q -> 0 < r_cols r -> 0 < r_rows r ->
  away (src m r (rt, c1)) = false -> away (src m r (rb, c2)) = false ->
  away (src m r (r1, cl)) = false -> away (src m r (r2, cr)) = false ->
  rt <= row <= rb -> cl <= col <= cr -> away (src m r (row, col)) = false.
Proof.
  clear. intros S SM C R A1 A2 A3 A4 RB CB.
  assert (NL : forall a b, away (src m r (a, b)) = false -> ~ lies r (fst (centre m a b)) (snd (centre m a b)) Away).
  { intros a b H L. apply away_lies in L; auto. congruence. }
  apply NL in A1, A2, A3, A4. apply not_true_is_false. intros H. apply away_lies in H; auto.
  cbn [lies centre fst snd] in *.
  assert (X1 : (inject_Z cl * r_cs m <= inject_Z col * r_cs m)%Q) by (apply Qmult_le_compat_r; [rewrite <- Zle_Qle; lia|lra]).
  assert (X2 : (inject_Z col * r_cs m <= inject_Z cr * r_cs m)%Q) by (apply Qmult_le_compat_r; [rewrite <- Zle_Qle; lia|lra]).
  assert (Y1 : (inject_Z (r_rows m - rb - 1) * r_cs m <= inject_Z (r_rows m - row - 1) * r_cs m)%Q) by (apply Qmult_le_compat_r; [rewrite <- Zle_Qle; lia|lra]).
  assert (Y2 : (inject_Z (r_rows m - row - 1) * r_cs m <= inject_Z (r_rows m - rt - 1) * r_cs m)%Q) by (apply Qmult_le_compat_r; [rewrite <- Zle_Qle; lia|lra]).
  destruct H as [H|[H|[H|H]]].
  - apply A3. left. lra.
  - apply A4. right; left. lra.
  - apply A2. right; right; left. lra.
  - apply A1. right; right; right. lra.
Qed.

Lemma scanned_geo m m1 r ps st : geo_of m1 = geo_of m -> scanned feq m1 r ps st -> scanned feq m r ps st.
Proof.
  intros G. assert (R : r_rows m1 = r_rows m) by (apply (f_equal g_rows) in G; exact G).
  assert (C : r_cols m1 = r_cols m) by (apply (f_equal g_cols) in G; exact G).
  assert (E : src m1 r = src m r) by (unfold src; rewrite G; reflexivity).
  unfold scanned, clean, steady, visited, reached, hitb, seen. rewrite E, R, C. tauto.
Qed.

(** What is known when the flags are to be set. *)
Section Finish.
Variables (m m1 : raster M) (ix : list Z) (r : raster T) (st : mstate (T := T)) (old : Z) (ordm : list nat).
Hypothesis LR : loaded r.
Hypothesis RD : ready feqM m m1 ix.
Hypothesis SC : scanned feq m r (rcs m ix) st.
Hypothesis NE : ix <> [].

Let NL : 1 <= r_nlyrs r. Proof. destruct LR as (_&_&?&_). assumption. Qed.
Let K := k_r st.
Let FR : same_frame r K. Proof. apply SC. Qed.
Let LK : loaded K. Proof. apply SC. Qed.

Lemma K_pos : r_pos K = None.
Proof. destruct LK as (_&_&_&_&?&_). assumption. Qed.

Lemma m1_compact : compact m1 ix.
Proof. clear SC LK FR. destruct RD as (_&_&_&_&_&_&[[A _]|[_ A]]); [congruence|exact A]. Qed.

Lemma valid_pos_set (x : raster T) a b c0 c1 c2 d e f g p q z1 z2 n hn : x = K ->
  ValidateRasterData (set_ncells (set_pos (set_ncells (set_header x a b c0 c1 c2 d e f) g hn) p q z1 z2) n hn) = true.
Proof. intros ->. destruct LK as (_&_&_&S&_). apply storage_valid in S. exact S. Qed.

Lemma cells_len : Forall (right_len K) (k_cells st).
Proof.
  destruct SC as (_&_&_&_&_&L&_). eapply Forall_impl; [|exact L]. intros c H. unfold right_len.
  pose proof (frame_fields _ _ FR) as (_&_&E&_). rewrite E. exact H.
Qed.

Lemma cells_count : length (k_cells st) = length ix.
Proof. destruct SC as (_&_&_&_&P&_). apply (f_equal (@length _)) in P. rewrite map_length in P. unfold rcs in P. rewrite map_length in P. exact P. Qed.

(** New storage of [n > 0] cells, all NoData. *)
Lemma new_storage x n : 0 < n -> r_is2d x = r_is2d K -> r_nlyrs x = r_nlyrs K -> r_data2d x = r_data2d K ->
  exists x', (if r_is2d x && negb (isnull (r_data2d x)) then
                let* _ := release2d (r_data2d x) in
                Ok (set_cells x (r_data x) (init2d None n (repeat (r_nodata x) (Z.to_nat (r_nlyrs x)))))
              else Ok (set_cells x (init1d None n (r_nodata x)) (r_data2d x))) = Ok x' /\
     same_frame x x' /\ storage x' n /\ (forall i l, 0 <= i < n -> layer_ok x l -> read_cell x' i l = Ok (r_nodata x)).
Proof.
  intros N E2 EL ED. pose proof LK as (R & C & L1 & S & _). unfold storage in S. rewrite E2, ED.
  destruct (r_is2d K) eqn:I2.
  - destruct S as (d & Hd & Ld & Fd). rewrite Hd. cbn [isnull negb andb].
    destruct d as [|d0 dt]; [cbn in Ld; nia|]. cbn [release2d obind]. eexists. split; [reflexivity|].
    cbn [init2d]. destruct (n <? 0) eqn:Q; [lia|]. split; [reflexivity|]. split.
    + unfold storage. cbn [set_cells r_is2d r_data2d r_nlyrs]. rewrite E2. eexists. split; [reflexivity|].
      split; [rewrite repeat_length; lia|]. apply Forall_forall. intros c H. apply repeat_spec in H. subst c. rewrite repeat_length. lia.
    + intros i l I [A B]. unfold read_cell. cbn [set_cells r_is2d r_data2d]. rewrite E2. cbn [deref obind].
      rewrite (aget_ok _ _ (repeat (r_nodata x) (Z.to_nat (r_nlyrs x)))); [cbn [obind]|lia|apply nth_error_repeat; lia].
      apply aget_ok; [lia|]. apply nth_error_repeat. lia.
  - cbn [andb]. eexists. split; [reflexivity|]. cbn [init1d]. destruct (n <=? 0) eqn:Q; [lia|]. split; [reflexivity|]. split.
    + unfold storage. cbn [set_cells r_is2d r_data r_nlyrs]. rewrite E2. split; [destruct S; lia|]. eexists. split; [reflexivity|]. rewrite repeat_length. lia.
    + intros i l I [A B]. unfold read_cell. cbn [set_cells r_is2d r_data]. rewrite E2. cbn [deref obind].
      apply aget_ok; [lia|]. apply nth_error_repeat. lia.
Qed.

(** Positions borrowed from the mask. *)
Lemma finish_borrow vn : exists r5,
  mask_finish feq feqM ordm m1 st old false false false true vn = Ok (r5, m1, true, 2) /\
  compact r5 ix /\ geo_of r5 = geo_of m /\ r_nlyrs r5 = r_nlyrs r /\ r_nodata r5 = r_nodata r /\
  (forall k c l, nth_error (k_cells st) k = Some c -> layer_ok r l -> read_cell r5 (Z.of_nat k) l = aget (vc_vals c) (l - 1)).
Proof.
  pose proof m1_compact as CM. pose proof CM as (MR & MC & ML & MN & MNN & MS & MCA & MPI & MPO & MSO & MFO).
  pose proof (frame_fields _ _ FR) as (F1&F2&F3&F4&F5&F6&F7&F8&F9&F10&F11).
  assert (G : geo_of m1 = geo_of m) by apply RD.
  unfold mask_finish. fold K. rewrite K_pos. cbn [release2d obind negb andb orb].
  unfold GetRasterPositionData, GetRasterPositionIndex. rewrite MPO. cbn [isnull negb obind fst snd]. rewrite MPI. cbn [isnull negb obind fst snd].
  set (r3 := set_ncells (set_pos _ _ _ _ _) _ _). 
  assert (V : negb (ValidateRasterData (set_pos
     (set_ncells
        (set_header K (r_rows m1) (r_cols m1) (r_xll m1) (r_yll m1) (r_cs m1) (r_nodata K) (r_hcells m1) (r_nlyrs K)) (r_ncells m1)
        (r_hcells (set_header K (r_rows m1) (r_cols m1) (r_xll m1) (r_yll m1) (r_cs m1) (r_nodata K) (r_hcells m1) (r_nlyrs K))))
     (Some (map (fun k : Z => (k / r_cols m1, k mod r_cols m1)) ix)) (Some ix) true false)) = false).
  { destruct LK as (_&_&_&S&_). apply storage_valid in S. unfold ValidateRasterData in *. cbn. cbn in S. rewrite S. reflexivity. }
  rewrite V.
  assert (N5 : r_ncells r3 = Z.of_nat (length (k_cells st))) by (unfold r3; cbn; rewrite cells_count; exact MNN).
  destruct (new_storage r3 (r_ncells r3)) as (r3' & E3 & Fr3 & S3 & _); [unfold r3; cbn; exact MN|reflexivity|reflexivity|reflexivity|].
  change (r_ncells (set_pos _ _ _ _ _)) with (r_ncells r3).
  rewrite E3. cbn [obind].
  destruct (frame_fields _ _ Fr3) as (H1&H2&H3&H4&H5&H6&H7&H8&H9&H10&H11).
  destruct (fill_seq st (r_cols m1) (k_cells st) r3') as (r4 & E4 & Fr4 & S4 & V4).
  { rewrite <- N5. exact S3. } { rewrite H3. unfold r3. cbn. rewrite F3. exact NL. }
  { pose proof cells_len as CL. eapply Forall_impl; [|exact CL]. unfold right_len. intros c Hc. rewrite H3. exact Hc. }
  rewrite E4. cbn [obind].
  eexists. split; [reflexivity|].
  pose proof (frame_trans _ _ _ Fr3 Fr4) as Fr.
  destruct (frame_fields _ _ Fr) as (J1&J2&J3&J4&J5&J6&J7&J8&J9&J10&J11).
  set (r5 := set_ncells r4 (r_ncells r3) _).
  assert (R5 : r_rows r5 = r_rows m1) by (unfold r5; cbn; rewrite J1; reflexivity).
  assert (C5 : r_cols r5 = r_cols m1) by (unfold r5; cbn; rewrite J2; reflexivity).
  assert (L5 : r_nlyrs r5 = r_nlyrs r) by (unfold r5; cbn; rewrite J3; unfold r3; cbn; exact F3).
  split.
  { unfold compact. rewrite R5, C5, L5. split; [exact MR|]. split; [exact MC|]. split; [exact NL|].
    change (r_ncells r5) with (r_ncells r3). change (r_ncells r3) with (r_ncells m1) at 1 2.
    split; [exact MN|]. split; [exact MNN|]. split.
    { rewrite N5. unfold storage in *. unfold r5. cbn. exact S4. }
    split; [unfold r5; cbn; rewrite J10; reflexivity|]. split; [unfold r5; cbn; rewrite J9; reflexivity|].
    split; [unfold r5; cbn; rewrite J8; reflexivity|]. split; assumption. }
  split. { rewrite <- G. unfold r5, geo_of in *. cbn. rewrite J1, J2. injection J7 as _ _ J7 J7' J7''. rewrite J7, J7', J7''. reflexivity. }
  split; [exact L5|]. split; [unfold r5; cbn; rewrite J4; unfold r3; cbn; exact F4|].
  intros k c l Hk Hl. change (read_cell r5 (Z.of_nat k) l) with (read_cell r4 (Z.of_nat k) l). apply V4; [exact Hk|].
  unfold layer_ok in *. rewrite H3. unfold r3. cbn. rewrite F3. exact Hl.
Qed.

(** The rectangle, when something matched. *)
Definition matched_box : Prop := 0 <= k_minr st <= k_maxr st /\ k_maxr st < r_rows m /\ 0 <= k_minc st <= k_maxc st /\ k_maxc st < r_cols m.

Definition shift c : vcell T := mkVcell (vc_row c - k_minr st) (vc_col c - k_minc st) (vc_vals c).
Definition keepb c : bool := negb (outside_box st c || match vc_vals c with v :: _ => feq v (r_nodata r) | [] => false end).
Definition kept := filter keepb (k_cells st).
Lemma kept_cells : keep_cells feq (r_nodata K) st = map shift kept.
Proof. pose proof (frame_fields _ _ FR) as (_&_&_&E&_). unfold keep_cells, kept, keepb. rewrite E. reflexivity. Qed.

Lemma keepb_in c : keepb c = true -> k_minr st <= vc_row c <= k_maxr st /\ k_minc st <= vc_col c <= k_maxc st.
Proof. clear. unfold keepb, outside_box. lia. Qed.

(** Cells come in row-major order. *)
Lemma cells_sorted : StronglySorted (fun a b : vcell T => vc_row a * r_cols m + vc_col a < vc_row b * r_cols m + vc_col b) (k_cells st)
  /\ Forall (fun c => 0 <= vc_row c < r_rows m /\ 0 <= vc_col c < r_cols m) (k_cells st).
Proof.
  destruct SC as (_&_&_&_&P&_). destruct RD as (G & S & F & _).
  assert (CP : 0 < r_cols m).
  { pose proof m1_compact as (_ & C1 & _). apply (f_equal g_cols) in G. cbn in G. lia. }
  assert (P2 : map (fun c : vcell T => vc_row c * r_cols m + vc_col c) (k_cells st) = ix).
  { transitivity (map (fun rc => fst rc * r_cols m + snd rc) (map (fun c : vcell T => (vc_row c, vc_col c)) (k_cells st))).
    - rewrite map_map. reflexivity.
    - rewrite P. unfold rcs. rewrite map_map. cbn [fst snd]. rewrite <- (map_id ix) at 2. apply map_ext. intros k.
      pose proof (Z.div_mod k (r_cols m)). lia. }
  split.
  - rewrite <- P2 in S. revert S. clear. induction (k_cells st) as [|c l IH]; intros S; [constructor|]. cbn [map] in S. inversion S; subst.
    constructor; [apply IH; assumption|]. rewrite Forall_forall in *. intros x I. apply H2. apply in_map_iff. exists x. auto.
  - apply Forall_forall. intros c I. assert (I2 : In (vc_row c, vc_col c) (rcs m ix)) by (rewrite <- P; apply in_map_iff; exists c; auto).
    apply rcs_In in I2; [|exact CP|exact F]. destruct I2 as [[A B] _]. auto.
Qed.

Lemma shifted_sorted w : matched_box -> k_maxc st - k_minc st + 1 <= w ->
  StronglySorted Z.lt (map (fun c => vc_row c * w + vc_col c) (map shift kept)).
Proof.
  intros MB W. destruct cells_sorted as [S F]. unfold matched_box in MB.
  assert (S2 : StronglySorted (fun a b : vcell T => vc_row a * r_cols m + vc_col a < vc_row b * r_cols m + vc_col b) kept)
    by (apply StronglySorted_filter; exact S).
  assert (F2 : Forall (fun c => keepb c = true /\ 0 <= vc_row c < r_rows m /\ 0 <= vc_col c < r_cols m) kept).
  { apply Forall_forall. intros c I. apply filter_In in I. rewrite Forall_forall in F. destruct I as [I B]. split; [exact B|]. apply F, I. }
  rewrite map_map. cbn [shift vc_row vc_col]. induction kept as [|c l IH]; cbn [map]; constructor.
  - inversion S2; inversion F2; subst. apply IH; assumption.
  - inversion S2 as [|? ? ? S3]; inversion F2 as [|? ? [K1 K2] F3]; subst. apply keepb_in in K1.
    apply Forall_forall. intros x I. apply in_map_iff in I. destruct I as (d & <- & I).
    rewrite Forall_forall in S3, F3. specialize (S3 d I). destruct (F3 d I) as [D1 D2]. apply keepb_in in D1.
    assert (vc_row c < vc_row d \/ vc_row c = vc_row d /\ vc_col c < vc_col d) as [L|[L1 L2]] by nia; [nia|rewrite L1; lia].
Qed.

Lemma finish_recalc (rowcol : bool) vn : matched_box -> kept <> [] ->
  let w := if rowcol then k_maxc st - k_minc st + 1 else r_cols m in
  let h := if rowcol then k_maxr st - k_minr st + 1 else r_rows m in
  let ix' := map (fun c => (vc_row c - k_minr st) * w + (vc_col c - k_minc st)) kept in
  exists r5,
  mask_finish feq feqM ordm m1 st old true false rowcol true vn = Ok (r5, m1, false, 2) /\
  compact r5 ix' /\
  geo_of r5 = mkGeo h w (if rowcol then (r_xll m + inject_Z (k_minc st) * r_cs m)%Q else r_xll m)
                        (if rowcol then (r_yll m + inject_Z (r_rows m - k_maxr st - 1) * r_cs m)%Q else r_yll m) (r_cs m) /\
  r_nlyrs r5 = r_nlyrs r /\ r_nodata r5 = r_nodata r /\
  (forall k c l, nth_error kept k = Some c -> layer_ok r l -> read_cell r5 (Z.of_nat k) l = aget (vc_vals c) (l - 1)).
Proof.
  intros MB KN w h ix'. pose proof MB as MB'. unfold matched_box in MB'.
  pose proof (frame_fields _ _ FR) as (F1&F2&F3&F4&F5&F6&F7&F8&F9&F10&F11).
  assert (G : geo_of m1 = geo_of m) by apply RD.
  assert (G1 : r_rows m1 = r_rows m) by (apply (f_equal g_rows) in G; exact G).
  assert (G2 : r_cols m1 = r_cols m) by (apply (f_equal g_cols) in G; exact G).
  assert (G3 : r_xll m1 = r_xll m) by (apply (f_equal g_xll) in G; exact G).
  assert (G4 : r_yll m1 = r_yll m) by (apply (f_equal g_yll) in G; exact G).
  assert (G5 : r_cs m1 = r_cs m) by (apply (f_equal g_cs) in G; exact G).
  unfold mask_finish. fold K. rewrite K_pos. cbn [release2d obind negb andb orb]. rewrite kept_cells.
  set (n := Z.of_nat (length (map shift kept))).
  assert (NP : 0 < n) by (unfold n; rewrite map_length; destruct kept; [congruence|cbn; lia]).
  cbn [fst snd init2d init1d]. assert (Q1 : (n <? 0) = false) by (clear - NP; lia). assert (Q2 : (n <=? 0) = false) by (clear - NP; lia). rewrite Q1, Q2. cbn [option_map].
  rewrite G1, G2, G3, G4, G5. fold w. fold h.
  assert (WP : 0 < w) by (unfold w; destruct rowcol; lia). assert (HP : 0 < h) by (unfold h; destruct rowcol; lia).
  assert (WW : k_maxc st - k_minc st + 1 <= w) by (unfold w; destruct rowcol; lia).
  assert (HH : k_maxr st - k_minr st + 1 <= h) by (unfold h; destruct rowcol; lia).
  set (xl := if rowcol then (r_xll m + _)%Q else _). set (yl := if rowcol then (r_yll m + _)%Q else _).
  assert (IX : map (fun c : vcell T => vc_row c * w + vc_col c) (map shift kept) = ix') by (rewrite map_map; reflexivity).
  rewrite IX.
  set (r2 := set_pos _ _ _ _ _).
  assert (V : ValidateRasterData r2 = true).
  { destruct LK as (_&_&_&S&_). apply storage_valid in S. unfold ValidateRasterData in *. unfold r2. cbn. cbn in S. exact S. }
  rewrite V. cbn [negb]. change (r_ncells r2) with n. 
  set (r3 := set_ncells r2 _ _).
  destruct (new_storage r3 n NP) as (r3' & E3 & Fr3 & S3 & _); [reflexivity|reflexivity|reflexivity|].
  cbn [init2d init1d] in E3. rewrite E3. cbn [obind].
  destruct (frame_fields _ _ Fr3) as (H1&H2&H3&H4&H5&H6&H7&H8&H9&H10&H11).
  destruct (fill_seq st w (map shift kept) r3') as (r4 & E4 & Fr4 & S4 & V4).
  { exact S3. } { rewrite H3. unfold r3, r2. cbn. rewrite F3. exact NL. }
  { pose proof cells_len as CL. rewrite Forall_forall in CL. apply Forall_forall. intros c Hc. apply in_map_iff in Hc. destruct Hc as (d & <- & Hd).
    apply filter_In in Hd. unfold right_len. cbn [shift vc_vals]. rewrite H3. apply CL, Hd. }
  rewrite E4. cbn [obind]. eexists. split; [reflexivity|].
  pose proof (frame_trans _ _ _ Fr3 Fr4) as Fr. destruct (frame_fields _ _ Fr) as (J1&J2&J3&J4&J5&J6&J7&J8&J9&J10&J11).
  set (r5 := set_ncells r4 _ _).
  assert (R5 : r_rows r5 = h) by (unfold r5; cbn; rewrite J1; reflexivity).
  assert (C5 : r_cols r5 = w) by (unfold r5; cbn; rewrite J2; reflexivity).
  assert (L5 : r_nlyrs r5 = r_nlyrs r) by (unfold r5; cbn; rewrite J3; unfold r3; cbn; exact F3).
  split.
  { unfold compact. rewrite R5, C5, L5. split; [exact HP|]. split; [exact WP|]. split; [exact NL|].
    change (r_ncells r5) with n. split; [exact NP|]. split; [unfold n, ix'; rewrite !map_length; reflexivity|]. split; [exact S4|].
    split; [unfold r5; cbn; rewrite J10; reflexivity|]. split; [unfold r5; cbn; rewrite J9; reflexivity|].
    split.
    { unfold r5. cbn [set_ncells r_pos]. rewrite J8. unfold r3, r2. cbn [set_ncells set_pos r_pos]. f_equal. rewrite map_map. cbn [shift vc_row vc_col].
      unfold ix'. rewrite map_map. apply map_ext_in. intros c Hc. apply filter_In in Hc. destruct Hc as [_ Hc]. apply keepb_in in Hc. f_equal.
      - symmetry. apply div_rc. clear - Hc WW. lia.
      - symmetry. apply mod_rc. clear - Hc WW. lia. }
    split; [rewrite <- IX; apply shifted_sorted; assumption|].
    unfold ix'. apply Forall_forall. intros x Hx. apply in_map_iff in Hx. destruct Hx as (c & <- & Hc). apply filter_In in Hc. destruct Hc as [_ Hc]. apply keepb_in in Hc. clear - Hc WW HH. nia. }
  split.
  { unfold r5, geo_of in *. cbn. rewrite J1, J2. injection J7 as _ _ J7 J7' J7''. rewrite J7, J7', J7''. reflexivity. }
  split; [exact L5|]. split; [unfold r5; cbn; rewrite J4; unfold r3; cbn; exact F4|].
  intros k c l Hk Hl. change (read_cell r5 (Z.of_nat k) l) with (read_cell r4 (Z.of_nat k) l).
  rewrite (V4 k (shift c) l); [reflexivity|rewrite nth_error_map, Hk; reflexivity|].
  unfold layer_ok in *. rewrite H3. unfold r3. cbn. rewrite F3. exact Hl.
Qed.

(** Everything dropped. *)
Lemma finish_recalc_empty (rowcol : bool) vn : kept = [] -> exists r5,
  mask_finish feq feqM ordm m1 st old true false rowcol true vn = Ok (r5, m1, false, 2) /\
  geo_of r5 = mkGeo (if rowcol then k_maxr st - k_minr st + 1 else r_rows m) (if rowcol then k_maxc st - k_minc st + 1 else r_cols m)
                    (if rowcol then (r_xll m + inject_Z (k_minc st) * r_cs m)%Q else r_xll m)
                    (if rowcol then (r_yll m + inject_Z (r_rows m - k_maxr st - 1) * r_cs m)%Q else r_yll m) (r_cs m) /\
  r_nodata r5 = r_nodata r /\ r_ncells r5 = 0 /\ r_pos r5 = Some [] /\ r_posidx r5 = None.
Proof.
  intros KE. pose proof (frame_fields _ _ FR) as (F1&F2&F3&F4&F5&F6&F7&F8&F9&F10&F11).
  assert (G : geo_of m1 = geo_of m) by apply RD.
  assert (G1 : r_rows m1 = r_rows m) by (apply (f_equal g_rows) in G; exact G).
  assert (G2 : r_cols m1 = r_cols m) by (apply (f_equal g_cols) in G; exact G).
  assert (G3 : r_xll m1 = r_xll m) by (apply (f_equal g_xll) in G; exact G).
  assert (G4 : r_yll m1 = r_yll m) by (apply (f_equal g_yll) in G; exact G).
  assert (G5 : r_cs m1 = r_cs m) by (apply (f_equal g_cs) in G; exact G).
  unfold mask_finish. fold K. rewrite K_pos. cbn [release2d obind negb andb orb]. rewrite kept_cells, KE. cbn [map length Z.of_nat].
  cbn [fst snd init2d init1d Z.ltb Z.leb Z.compare option_map Z.to_nat repeat].
  rewrite G1, G2, G3, G4, G5.
  set (r2 := set_pos _ _ _ _ _).
  assert (V : ValidateRasterData r2 = true).
  { destruct LK as (_&_&_&S&_). apply storage_valid in S. unfold ValidateRasterData in *. unfold r2. cbn. cbn in S. exact S. }
  rewrite V. cbn [negb]. change (r_ncells r2) with 0. set (r3 := set_ncells r2 _ _).
  change (0 <? 0) with false. change (0 <=? 0) with true. change (Z.to_nat 0) with O. cbv iota. change (repeat (repeat (r_nodata r3) (Z.to_nat (r_nlyrs r3))) 0) with (@nil (list T)).
  assert (X : exists x, (if r_is2d r3 && negb (isnull (r_data2d r3)) then
                let* _ := release2d (r_data2d r3) in
                Ok (set_cells r3 (r_data r3) (Some []))
              else Ok (set_cells r3 None (r_data2d r3))) = Ok x /\ geo_of x = geo_of r3 /\ r_nodata x = r_nodata r3 /\ r_pos x = r_pos r3 /\ r_posidx x = r_posidx r3).
  { pose proof LK as (R & C & L1 & S & _). unfold storage in S. change (r_is2d r3) with (r_is2d K). change (r_data2d r3) with (r_data2d K).
    destruct (r_is2d K); [|cbn [andb]; eexists; split; [reflexivity|cbn; auto]].
    destruct S as (d & Hd & Ld & Fd). rewrite Hd. cbn [isnull negb andb].
    destruct d as [|d0 dt]; [cbn in Ld; nia|]. cbn [release2d obind]. eexists. split; [reflexivity|cbn; auto]. }
  destruct X as (x & EX & X1 & X2 & X3 & X4). rewrite EX. cbn [obind]. unfold fill_cells. cbn [length Z.of_nat].
  rewrite (zseq_0 0) by lia. cbn [combine ofold obind].
  eexists. split; [reflexivity|]. split; [unfold geo_of in *; cbn; injection X1; intros -> -> -> -> ->; reflexivity|].
  cbn. rewrite X2, X3, X4. unfold r3, r2. cbn. auto.
Qed.

(** Full rectangle. *)
Lemma finish_full vn : matched_box -> old <> (k_maxc st - k_minc st + 1) * (k_maxr st - k_minr st + 1) ->
  (k_maxc st - k_minc st + 1) * (k_maxr st - k_minr st + 1) <= 18446744073709551616 ->
  exists r5,
  mask_finish feq feqM ordm m1 st old false true true false vn = Ok (r5, m1, false, 2) /\ full_grid r5 /\
  geo_of r5 = mkGeo (k_maxr st - k_minr st + 1) (k_maxc st - k_minc st + 1)
                    (r_xll m + inject_Z (k_minc st) * r_cs m)%Q (r_yll m + inject_Z (r_rows m - k_maxr st - 1) * r_cs m)%Q (r_cs m) /\
  r_nlyrs r5 = r_nlyrs r /\ r_nodata r5 = r_nodata r /\
  (forall c l, In c (k_cells st) -> outside_box st c = false -> layer_ok r l ->
     read_cell r5 (box_idx st (k_maxc st - k_minc st + 1) c) l = aget (vc_vals c) (l - 1)) /\
  (forall i l, 0 <= i < (k_maxr st - k_minr st + 1) * (k_maxc st - k_minc st + 1) ->
     (forall c, In c (k_cells st) -> outside_box st c = false -> box_idx st (k_maxc st - k_minc st + 1) c <> i) -> layer_ok r l ->
     read_cell r5 i l = Ok (r_nodata r)).
Proof.
  intros MB ON N64. pose proof MB as MB'. unfold matched_box in MB'.
  pose proof (frame_fields _ _ FR) as (F1&F2&F3&F4&F5&F6&F7&F8&F9&F10&F11).
  assert (G : geo_of m1 = geo_of m) by apply RD.
  assert (G1 : r_rows m1 = r_rows m) by (apply (f_equal g_rows) in G; exact G).
  assert (G3 : r_xll m1 = r_xll m) by (apply (f_equal g_xll) in G; exact G).
  assert (G4 : r_yll m1 = r_yll m) by (apply (f_equal g_yll) in G; exact G).
  assert (G5 : r_cs m1 = r_cs m) by (apply (f_equal g_cs) in G; exact G).
  unfold mask_finish. fold K. rewrite K_pos. cbn [release2d obind negb andb orb fst snd]. rewrite G1, G3, G4, G5.
  set (w := k_maxc st - k_minc st + 1) in *. set (h := k_maxr st - k_minr st + 1) in *.
  set (xl := (r_xll m + _)%Q). set (yl := (r_yll m + _)%Q).
  set (r2 := set_pos _ _ _ _ _).
  assert (V : ValidateRasterData r2 = true).
  { destruct LK as (_&_&_&S&_). apply storage_valid in S. unfold ValidateRasterData in *. unfold r2. cbn. cbn in S. exact S. }
  rewrite V. cbn [negb]. assert (QO : (old =? w * h) = false) by (apply Z.eqb_neq; assumption). rewrite QO.
  assert (NP : 0 < w * h) by (clear - MB'; unfold w, h; nia). set (r3 := set_ncells r2 (w * h) _).
  destruct (new_storage r3 (w * h) NP) as (r3' & E3 & Fr3 & S3 & Z3); [reflexivity|reflexivity|reflexivity|].
  rewrite E3. cbn [obind].
  destruct (frame_fields _ _ Fr3) as (H1&H2&H3&H4&H5&H6&H7&H8&H9&H10&H11).
  assert (IB : forall c, outside_box st c = false -> k_minr st <= vc_row c <= k_maxr st /\ k_minc st <= vc_col c <= k_maxc st)
    by (clear; intros c; unfold outside_box; lia).
  assert (L3 : r_nlyrs r3' = r_nlyrs r) by (rewrite H3; unfold r3, r2; cbn; exact F3).
  destruct (fill_full st w (w * h) (k_cells st) r3') as (r4 & E4 & Fr4 & S4 & V4 & U4).
  { exact S3. } { rewrite L3. exact NL. } { unfold same_frame in Fr3. rewrite Fr3. reflexivity. } { exact N64. }
  { apply Forall_forall. intros c Hc O. apply IB in O. unfold box_idx. clear - O. unfold w, h. nia. }
  { destruct cells_sorted as [S _].
    assert (S2 : StronglySorted (fun a b : vcell T => vc_row a * r_cols m + vc_col a < vc_row b * r_cols m + vc_col b) (filter (fun c => negb (outside_box st c)) (k_cells st)))
      by (apply StronglySorted_filter; exact S).
    assert (F : Forall (fun c => outside_box st c = false) (filter (fun c => negb (outside_box st c)) (k_cells st))).
    { apply Forall_forall. intros c Hc. apply filter_In in Hc. destruct Hc as [_ Hc]. apply negb_true_iff in Hc. exact Hc. }
    apply sorted_NoDup. induction (filter (fun c => negb (outside_box st c)) (k_cells st)) as [|c l IH]; cbn [map]; constructor.
    - inversion S2; inversion F; subst. apply IH; assumption.
    - inversion S2 as [|? ? ? A]; inversion F as [|? ? B1 B2]; subst. apply Forall_forall. intros x Hx. apply in_map_iff in Hx. destruct Hx as (d & <- & Hd).
      rewrite Forall_forall in A, B2. specialize (A d Hd). specialize (B2 d Hd). apply IB in B1, B2. unfold box_idx, w, h. clear - A B1 B2 MB'.
      assert (vc_row c < vc_row d \/ vc_row c = vc_row d /\ vc_col c < vc_col d) as [L|[L1 L2]] by nia; [nia|rewrite L1; lia]. }
  { pose proof cells_len as CL. eapply Forall_impl; [|exact CL]. unfold right_len. intros c Hc. rewrite L3, Hc. exact F3. }
  rewrite E4. cbn [obind]. eexists. split; [reflexivity|].
  pose proof (frame_trans _ _ _ Fr3 Fr4) as Fr. destruct (frame_fields _ _ Fr) as (J1&J2&J3&J4&J5&J6&J7&J8&J9&J10&J11).
  set (r5 := set_ncells r4 _ _).
  assert (R5 : r_rows r5 = h) by (unfold r5; cbn; rewrite J1; reflexivity).
  assert (C5 : r_cols r5 = w) by (unfold r5; cbn; rewrite J2; reflexivity).
  assert (L5 : r_nlyrs r5 = r_nlyrs r) by (unfold r5; cbn; rewrite J3; unfold r3; cbn; exact F3).
  split.
  { unfold full_grid. rewrite R5, C5, L5. split; [clear - MB'; unfold h; lia|]. split; [clear - MB'; unfold w; lia|]. split; [exact NL|].
    split; [unfold r5; cbn; apply Z.mul_comm|]. split; [rewrite (Z.mul_comm h w); exact S4|].
    split; [unfold r5; cbn; rewrite J8; reflexivity|unfold r5; cbn; rewrite J9; reflexivity]. }
  split. { unfold r5, geo_of in *. cbn. rewrite J1, J2. injection J7 as _ _ J7 J7' J7''. rewrite J7, J7', J7''. reflexivity. }
  split; [exact L5|]. split; [unfold r5; cbn; rewrite J4; unfold r3; cbn; exact F4|].
  assert (LO : forall l, layer_ok r l -> layer_ok r3' l) by (intros l; unfold layer_ok; rewrite L3; auto).
  split.
  - intros c l Hc O Hl. change (read_cell r5 (box_idx st w c) l) with (read_cell r4 (box_idx st w c) l). apply V4; auto.
  - intros i l Hi Hn Hl. change (read_cell r5 i l) with (read_cell r4 i l). rewrite U4 by auto. rewrite Z3 by (first [rewrite (Z.mul_comm w h); exact Hi|unfold layer_ok, r3, r2 in *; cbn; rewrite F3; exact Hl]).
    unfold r3, r2. cbn. rewrite F4. reflexivity.
Qed.

(** Full rectangle of the source's size: the data stay as they are. *)
Lemma finish_same vn : old = (k_maxc st - k_minc st + 1) * (k_maxr st - k_minr st + 1) -> exists r5,
  mask_finish feq feqM ordm m1 st old false true true false vn = Ok (r5, m1, false, 2) /\
  geo_of r5 = mkGeo (k_maxr st - k_minr st + 1) (k_maxc st - k_minc st + 1)
                    (r_xll m + inject_Z (k_minc st) * r_cs m)%Q (r_yll m + inject_Z (r_rows m - k_maxr st - 1) * r_cs m)%Q (r_cs m) /\
  r_data r5 = r_data K /\ r_data2d r5 = r_data2d K /\ r_is2d r5 = r_is2d r /\ r_nlyrs r5 = r_nlyrs r /\ r_nodata r5 = r_nodata r /\
  r_pos r5 = None /\ r_posidx r5 = None.
Proof.
  intros ON. pose proof (frame_fields _ _ FR) as (F1&F2&F3&F4&F5&F6&F7&F8&F9&F10&F11).
  assert (G : geo_of m1 = geo_of m) by apply RD.
  assert (G1 : r_rows m1 = r_rows m) by (apply (f_equal g_rows) in G; exact G).
  assert (G3 : r_xll m1 = r_xll m) by (apply (f_equal g_xll) in G; exact G).
  assert (G4 : r_yll m1 = r_yll m) by (apply (f_equal g_yll) in G; exact G).
  assert (G5 : r_cs m1 = r_cs m) by (apply (f_equal g_cs) in G; exact G).
  unfold mask_finish. fold K. rewrite K_pos. cbn [release2d obind negb andb orb fst snd]. rewrite G1, G3, G4, G5.
  set (r2 := set_pos _ _ _ _ _).
  assert (V : ValidateRasterData r2 = true).
  { destruct LK as (_&_&_&S&_). apply storage_valid in S. unfold ValidateRasterData in *. unfold r2. cbn. cbn in S. exact S. }
  rewrite V. cbn [negb]. rewrite <- ON, Z.eqb_refl. cbn [obind].
  eexists. split; [reflexivity|]. unfold r2, geo_of. cbn. rewrite F3, F4, F6. auto 10.
Qed.

(** Full rectangle when nothing matched. *)
Lemma finish_none vn : k_maxr st = -1 -> k_minr st = r_rows m -> k_maxc st = -1 -> k_minc st = r_cols m -> 
  r_rows m * r_cols m <= 18446744073709551616 -> exists r5,
  mask_finish feq feqM ordm m1 st old false true true false vn = Ok (r5, m1, false, 2) /\
  r_rows r5 = - r_rows m /\ r_cols r5 = - r_cols m.
Proof.
  intros A1 A2 A3 A4 N64. pose proof (frame_fields _ _ FR) as (F1&F2&F3&F4&F5&F6&F7&F8&F9&F10&F11).
  pose proof m1_compact as (MR & MC & _). assert (G : geo_of m1 = geo_of m) by apply RD.
  assert (G1 : r_rows m1 = r_rows m) by (apply (f_equal g_rows) in G; exact G).
  assert (G2 : r_cols m1 = r_cols m) by (apply (f_equal g_cols) in G; exact G).
  destruct (Z.eq_dec old ((k_maxc st - k_minc st + 1) * (k_maxr st - k_minr st + 1))) as [EO|NO].
  { destruct (finish_same vn EO) as (r5 & E & GE & _). exists r5. split; [exact E|]. unfold geo_of in GE. injection GE as GR GC _ _ _. lia. }
  unfold mask_finish. fold K. rewrite K_pos. cbn [release2d obind negb andb orb fst snd].
  set (w := k_maxc st - k_minc st + 1) in *. set (h := k_maxr st - k_minr st + 1) in *.
  set (r2 := set_pos _ _ _ _ _).
  assert (V : ValidateRasterData r2 = true).
  { destruct LK as (_&_&_&S&_). apply storage_valid in S. unfold ValidateRasterData in *. unfold r2. cbn. cbn in S. exact S. }
  rewrite V. cbn [negb]. assert (QO : (old =? w * h) = false) by (apply Z.eqb_neq; assumption). rewrite QO.
  assert (NP : 0 < w * h) by (clear - A1 A2 A3 A4 MR MC G1 G2; unfold w, h; nia). set (r3 := set_ncells r2 (w * h) _).
  destruct (new_storage r3 (w * h) NP) as (r3' & E3 & Fr3 & S3 & Z3); [reflexivity|reflexivity|reflexivity|].
  rewrite E3. cbn [obind]. destruct (frame_fields _ _ Fr3) as (H1&H2&H3&H4&H5&H6&H7&H8&H9&H10&H11).
  assert (L3 : r_nlyrs r3' = r_nlyrs r) by (rewrite H3; unfold r3, r2; cbn; exact F3).
  destruct (cells_sorted) as [_ CB].
  assert (OB : forall c, In c (k_cells st) -> outside_box st c = true).
  { intros c Hc. rewrite Forall_forall in CB. specialize (CB c Hc). unfold outside_box. rewrite A1. clear - CB. lia. }
  destruct (fill_full st w (w * h) (k_cells st) r3') as (r4 & E4 & Fr4 & S4 & V4 & U4).
  { exact S3. } { rewrite L3. exact NL. } { unfold same_frame in Fr3. rewrite Fr3. reflexivity. } { clear - N64 A1 A2 A3 A4. unfold w, h. rewrite A1, A2, A3, A4. lia. }
  { apply Forall_forall. intros c Hc O. rewrite OB in O by exact Hc. discriminate. }
  { replace (filter (fun c => negb (outside_box st c)) (k_cells st)) with (@nil (vcell T)); [constructor|].
    symmetry. induction (k_cells st) as [|c l IH]; [reflexivity|]. cbn [filter]. rewrite OB by (left; reflexivity). cbn [negb]. apply IH.
    - inversion CB; assumption.
    - intros d Hd. apply OB. right; exact Hd. }
  { pose proof cells_len as CL. eapply Forall_impl; [|exact CL]. unfold right_len. intros c Hc. rewrite L3, Hc. exact F3. }
  rewrite E4. cbn [obind]. eexists. split; [reflexivity|].
  pose proof (frame_trans _ _ _ Fr3 Fr4) as Fr. destruct (frame_fields _ _ Fr) as (J1&J2&J3&J4&J5&J6&J7&J8&J9&J10&J11).
  cbn. rewrite J1, J2. unfold r3, r2. cbn. clear - A1 A2 A3 A4. unfold w, h. lia.
Qed.
End Finish.
End Main.
