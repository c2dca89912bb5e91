(** Masking: geometry and the mask's positions. *)
From Coq Require Import ZArith QArith List Bool Lia Lqa ZifyBool Sorted.
From Verif Require Import Base RasterModel RasterSpec RasterProofs RasterProofs2 RasterProofs3 ListLib CoordModel CoordSpec CoordProofs
  MaskModel MaskSpec MaskProofs SubsetProofs4.
Import ListNotations.
Open Scope Z_scope.

Section Geom.
Context {T M : Type}.
Variable feq : T -> T -> bool.
Implicit Types r : raster T.
Implicit Types m : raster M.

Lemma lies_at r x y i j : (0 < r_cs r)%Q -> lies r x y (At i j) -> GetPositionByCoordinate (geo_of r) x y = (i, j).
Proof. clear. intros S (G & I & X & Y). apply by_coordinate; auto. Qed.

Lemma x_max_spec g : (x_max g == g_xll g + (inject_Z (g_cols g) - (1 # 2)) * g_cs g)%Q.
Proof. rewrite x_max_eq, x_min_eq. ring. Qed.
Lemma y_max_spec g : (y_max g == g_yll g + (inject_Z (g_rows g) - (1 # 2)) * g_cs g)%Q.
Proof. rewrite y_max_eq, y_min_eq. ring. Qed.

Lemma lies_away r x y : lies r x y Away -> GetPositionByCoordinate (geo_of r) x y = (-1, -1).
Proof.
  clear. cbn [lies]. intros H. unfold GetPositionByCoordinate.
  assert (E : (qltb (x_max (geo_of r)) x || qltb x (g_xll (geo_of r)))
           || (qltb (y_max (geo_of r)) y || qltb y (g_yll (geo_of r))) = true); [|rewrite E; reflexivity].
  rewrite !orb_true_iff, !qltb_lt. pose proof (x_max_spec (geo_of r)). pose proof (y_max_spec (geo_of r)).
  destruct H as [H|[H|[H|H]]]; [left; right; exact H|left; left; lra|right; right; exact H|right; left; lra].
Qed.

(** Row of a coordinate between the first and the last line. *)
Lemma row_exists g y : (0 < g_cs g)%Q -> 0 < g_rows g -> (g_yll g <= y)%Q -> (y <= y_max g)%Q ->
  exists i, 0 <= i < g_rows g /\ (g_yll g + (inject_Z (g_rows g - i - 1) - (1 # 2)) * g_cs g < y)%Q /\
    (y <= g_yll g + (inject_Z (g_rows g - i - 1) + (1 # 2)) * g_cs g)%Q.
Proof.
  clear. intros S R Y0 Y1. pose proof (y_max_spec g) as YM.
  destruct (Qlt_le_dec y (g_yll g + (inject_Z (g_rows g) - (1 # 2)) * g_cs g)) as [L|L].
  - destruct (axis_cell' (g_rows g) (g_yll g) (g_cs g) y S) as (k & K & A & B); [lra|exact L|].
    exists (g_rows g - k - 1). split; [lia|]. replace (g_rows g - (g_rows g - k - 1) - 1) with k by lia. auto.
  - exists 0. split; [lia|]. replace (g_rows g - 0 - 1) with (g_rows g - 1) by lia.
    unfold Z.sub. rewrite inject_Z_plus. change (inject_Z (-(1))) with (-1 # 1)%Q. split; lra.
Qed.

Lemma lies_edge r x y : (0 < r_cs r)%Q -> 0 < r_cols r -> 0 < r_rows r -> lies r x y AtEdge ->
  exists i, 0 <= i < r_rows r /\ GetPositionByCoordinate (geo_of r) x y = (i, r_cols r).
Proof.
  clear. intros S C R (X & Y0 & Y1). set (g := geo_of r) in *. pose proof (y_max_spec g) as YM. pose proof (x_max_spec g) as XM.
  destruct (row_exists g y S R Y0 ltac:(lra)) as (i & I & A & B). exists i. split; [exact I|].
  unfold GetPositionByCoordinate.
  assert (X0 : (g_xll g <= x)%Q).
  { rewrite X. pose proof (mul_le g S _ _ (inj_le 1 (g_cols g) ltac:(cbn; lia))) as D. change (inject_Z 1) with 1%Q in D.
    change (0 < g_cs g)%Q in S. lra. }
  rewrite (proj2 (qltb_ge (x_max g) x)) by lra. rewrite (proj2 (qltb_ge x (g_xll g))) by lra.
  rewrite (proj2 (qltb_ge (y_max g) y)) by lra. rewrite (proj2 (qltb_ge y (g_yll g))) by lra. cbn [orb]. f_equal.
  - apply row_trunc; auto; try lia.
  - change (r_cols r) with (g_cols g). apply qtrunc_spec; [cbn; lia| |].
    + apply Qle_shift_div_l; [exact S|]. geo g. lra.
    + apply Qlt_shift_div_r; [exact S|]. rewrite inject_Z_plus. geo g. change (inject_Z 1) with 1%Q. change (0 < g_cs g)%Q in S. lra.
Qed.

Lemma lies_total r x y : (0 < r_cs r)%Q -> 0 < r_cols r -> 0 < r_rows r -> exists p, lies r x y p.
Proof.
  clear. intros S C R. set (g := geo_of r).
  pose proof (y_max_spec g) as YM. pose proof (x_max_spec g) as XM. change (0 < g_cs g)%Q in S.
  destruct (Qlt_le_dec x (g_xll g)) as [L1|L1]; [exists Away; left; exact L1|].
  destruct (Qlt_le_dec (x_max g) x) as [L2|L2]; [exists Away; right; left; fold g; lra|].
  destruct (Qlt_le_dec y (g_yll g)) as [L3|L3]; [exists Away; right; right; left; exact L3|].
  destruct (Qlt_le_dec (y_max g) y) as [L4|L4]; [exists Away; right; right; right; fold g; lra|].
  destruct (Qlt_le_dec x (x_max g)) as [L5|L5].
  - destruct (row_exists g y S R L3 L4) as (i & I & A & B).
    destruct (axis_cell (g_cols g) (g_xll g) (g_cs g) x S) as (j & J & D & E); [lra|lra|].
    exists (At i j). unfold lies. fold g. split; [split; [exact I|exact J]|]. split; [|auto]. unfold in_cell. auto.
  - exists AtEdge. unfold lies. fold g. split; [lra|split; lra].
Qed.

Lemma lies_fun r x y p q : (0 < r_cs r)%Q -> 0 < r_cols r -> 0 < r_rows r -> lies r x y p -> lies r x y q -> p = q.
Proof.
  clear. intros S C R P Q.
  assert (K : forall p, lies r x y p -> match p with
    | At i j => inside r i j /\ GetPositionByCoordinate (geo_of r) x y = (i, j)
    | AtEdge => exists i, 0 <= i < r_rows r /\ GetPositionByCoordinate (geo_of r) x y = (i, r_cols r)
    | Away => GetPositionByCoordinate (geo_of r) x y = (-1, -1) end).
  { intros [i j| |] L; [split; [destruct L as ((A & B) & _); split; [exact A|exact B]|apply lies_at; auto]|apply lies_edge; auto|apply lies_away; auto]. }
  pose proof (K p P) as KP. pose proof (K q Q) as KQ. clear K P Q. unfold inside in *.
  destruct p as [i j| |], q as [i' j'| |];
    repeat match goal with H : _ /\ _ |- _ => destruct H | H : exists _, _ |- _ => destruct H end;
    try congruence; exfalso; match goal with A : ?t = (_, _), B : ?t = (_, _) |- _ => rewrite A in B; injection B; intros; lia end.
Qed.

(** The position found for a mask cell, in terms of [lies]. *)
Lemma src_lies m r row col p : (0 < r_cs r)%Q -> 0 < r_cols r -> 0 < r_rows r ->
  lies r (fst (centre m row col)) (snd (centre m row col)) p ->
  match p with
  | At i j => src m r (row, col) = (i, j) /\ inside r i j
  | AtEdge => exists i, 0 <= i < r_rows r /\ src m r (row, col) = (i, r_cols r)
  | Away => src m r (row, col) = (-1, -1)
  end.
Proof.
  clear. intros S C R L. unfold src. cbn [fst snd].
  change (GetCoordinateByRowCol (geo_of m) row col) with (centre m row col).
  destruct p as [i j| |]; [split; [apply lies_at; auto|destruct L as ((A & B) & _); split; [exact A|exact B]]|apply lies_edge; auto|apply lies_away; auto].
Qed.

Lemma ev_sees r m row col lyr v : loaded r -> (0 < r_cs r)%Q ->
  sees feq r m row col lyr v <-> v = ev feq r (src m r (row, col)) lyr.
Proof.
  intros L S. pose proof L as (R & C & _).
  assert (K : forall p, lies r (fst (centre m row col)) (snd (centre m row col)) p ->
    (match p with At i j => exists v0, GetValue r i j lyr = Ok v0 /\ v = replaced feq r v0
     | AtEdge => v = replaced feq r (r_nodata r) | Away => v = r_nodata r end <-> v = ev feq r (src m r (row, col)) lyr)).
  { intros p LP. pose proof (src_lies m r row col p S C R LP) as Q. unfold ev. destruct p as [i j| |].
    - destruct Q as [-> [I J]]. assert (A : away (i, j) = false) by (unfold away; cbn [fst snd]; lia). rewrite A.
      rewrite loaded_get by exact L. unfold rep. split; [intros (v0 & E & ->); congruence|intros ->; eauto].
    - destruct Q as (i & I & ->). assert (A : away (i, r_cols r) = false) by (unfold away; cbn [fst snd]; lia). rewrite A.
      rewrite gv_invalid by (left; unfold inside; cbn [fst snd]; lia). reflexivity.
    - rewrite Q. reflexivity. }
  unfold sees. split.
  - intros (p & LP & H). apply (K p LP). exact H.
  - intros H. destruct (lies_total r (fst (centre m row col)) (snd (centre m row col)) S C R) as (p & LP).
    exists p. split; [exact LP|]. apply (K p LP). exact H.
Qed.

Lemma matches_hit r m row col : loaded r -> (0 < r_cs r)%Q -> feq (r_nodata r) (r_nodata r) = true ->
  matches feq r m row col <-> hitb feq m r (row, col) = true.
Proof.
  intros L S ND. pose proof L as (R & C & _). unfold matches, hitb. split.
  - intros (i & j & v & LP & E & F). destruct (src_lies m r row col _ S C R LP) as [-> [I J]].
    assert (A : away (i, j) = false) by (unfold away; cbn [fst snd]; lia). rewrite A. cbn [negb andb].
    rewrite loaded_get in E by exact L. assert (gv r (i, j) 1 = v) by congruence. subst v. rewrite F. reflexivity.
  - intros H. destruct (lies_total r (fst (centre m row col)) (snd (centre m row col)) S C R) as (p & LP).
    pose proof (src_lies m r row col p S C R LP) as Q. apply andb_true_iff in H. destruct H as [H1 H2]. destruct p as [i j| |].
    + destruct Q as [Q _]. rewrite Q in H2. exists i, j, (gv r (i, j) 1). split; [exact LP|]. split; [apply loaded_get; exact L|].
      destruct (feq (gv r (i, j) 1) (r_nodata r)); [discriminate|reflexivity].
    + destruct Q as (i & I & Q). rewrite Q, gv_invalid in H2 by (left; unfold inside; cbn [fst snd]; lia). rewrite ND in H2. discriminate.
    + rewrite Q in H1. discriminate.
Qed.

Lemma NoDup_filter_map {A B} (f : A -> B) (q : B -> bool) : forall l, NoDup l ->
  (forall a b, In a l -> In b l -> f a = f b -> q (f a) = true -> a = b) -> NoDup (filter q (map f l)).
Proof.
  clear. induction l as [|a l IH]; intros N H; cbn [map filter]; [constructor|]. inversion N as [|? ? N1 N2]; subst.
  assert (G : NoDup (filter q (map f l))) by (apply IH; [exact N2|]; intros; apply H; try (right; assumption); assumption).
  destruct (q (f a)) eqn:Q; [|exact G]. constructor; [|exact G]. intros I. apply filter_In in I. destruct I as [I _].
  apply in_map_iff in I. destruct I as (b & E & I). apply N1. rewrite (H a b); [exact I|left; reflexivity|right; exact I|symmetry; exact E|exact Q].
Qed.

End Geom.

Section Positions.
Context {M : Type}.
Variable feqM : M -> M -> bool.
Implicit Types m : raster M.

Definition rcs m (ix : list Z) : list (Z * Z) := map (fun k => (k / r_cols m, k mod r_cols m)) ix.

Lemma rcs_NoDup m ix : 0 < r_cols m -> NoDup ix -> NoDup (rcs m ix).
Proof.
  clear. intros C N. unfold rcs. apply FinFun.Injective_map_NoDup; [|exact N]. intros a b E. injection E as E1 E2.
  rewrite (Z.div_mod a (r_cols m)), (Z.div_mod b (r_cols m)) by lia. congruence.
Qed.

(** What the masking loop gets: the mask [m1] and the list of cells. *)
Definition ready m m1 (ix : list Z) : Prop :=
  geo_of m1 = geo_of m /\ StronglySorted Z.lt ix /\ Forall (fun k => 0 <= k < r_rows m * r_cols m) ix /\
  (forall row col, In (row, col) (rcs m ix) <-> mask_valid feqM m row col) /\
  r_ncells m1 = Z.of_nat (length ix) /\ r_pos m1 = Some (rcs m ix) /\ (ix = [] /\ emptied m1 \/ ix <> [] /\ compact m1 ix).

Lemma rcs_In m ix row col : 0 < r_cols m -> Forall (fun k => 0 <= k < r_rows m * r_cols m) ix ->
  In (row, col) (rcs m ix) <-> inside m row col /\ In (row * r_cols m + col) ix.
Proof.
  clear. intros C F. unfold rcs. rewrite in_map_iff. split.
  - intros (k & E & I). injection E as <- <-. rewrite Forall_forall in F. specialize (F k I).
    pose proof (Z.div_mod k (r_cols m) ltac:(lia)). pose proof (Z.mod_pos_bound k (r_cols m) ltac:(lia)).
    split; [split; [split; [apply Z.div_pos; lia|apply Z.div_lt_upper_bound; lia]|assumption]|].
    replace (k / r_cols m * r_cols m + k mod r_cols m) with k by lia. exact I.
  - intros ((A & B) & I). exists (row * r_cols m + col). split; [|exact I]. f_equal.
    + symmetry. apply Z.div_unique with col; lia.
    + symmetry. apply Z.mod_unique with row; lia.
Qed.

Lemma mask_positions_ok m ord : wf m -> mask_order feqM m ord ->
  exists m1 ix, mask_positions feqM ord m = Ok (m1, (Z.of_nat (length ix), Some (rcs m ix))) /\ ready m m1 ix.
Proof.
  intros W O. unfold mask_positions, GetRasterPositionData. destruct W as [F|[(ix & C)|E]].
  - pose proof F as (R & C & L & N & S & P & I).
    assert (CN : CalcIterations feqM m = Ok (Z.of_nat (length (valid_idx feqM m)))).
    { unfold CalcIterations. erewrite collect_ok by (eauto; lia). cbn [obind]. rewrite map_length. reflexivity. }
    specialize (O _ CN).
    assert (NC : r_ncells (compacted feqM m) = Z.of_nat (length (valid_idx feqM m))) by (unfold compacted; destruct (r_is2d m); reflexivity).
    exists (compacted feqM m), (valid_idx feqM m).
    assert (PO : r_pos (compacted feqM m) = Some (rcs m (valid_idx feqM m))) by (unfold compacted; destruct (r_is2d m); reflexivity).
    split.
    + destruct (r_calc m) eqn:EC.
      * cbn [obind]. rewrite P. cbn [isnull negb]. rewrite (storage_valid _ _ S). cbn [negb].
        rewrite CalculateValidPositions_full by auto. cbn [obind]. rewrite NC, PO. reflexivity.
      * rewrite SetCalcPositions_full by (rewrite ?NC; auto). cbn [obind fst]. rewrite PO. cbn [isnull negb]. rewrite NC. reflexivity.
    + unfold ready. destruct (compacted_fields feqM m) as (F1 & F2 & F3 & F4 & F5).
      split; [unfold geo_of, compacted; destruct (r_is2d m); reflexivity|].
      split; [unfold valid_idx; apply StronglySorted_filter, StronglySorted_zseq|]. split; [apply Forall_valid_idx|].
      split; [|split; [exact NC|split; [exact PO|apply compacted_shape; exact F]]].
      intros row col. rewrite rcs_In by (try apply Forall_valid_idx; exact C). unfold mask_valid. split.
      * intros [IN H]. split; [exact IN|]. right. split; [exact F|]. apply valid_idx_In; auto.
      * intros (IN & [(ix & K & _)|(_ & H)]); [exfalso; eapply full_not_compact; eauto|]. split; [exact IN|]. apply valid_idx_In; auto.
  - pose proof C as (R & CC & L & N & NN & S & CA & PI & PO & SO & FO). exists m, ix. rewrite CA. cbn [obind]. rewrite PO. cbn [isnull negb].
    split; [rewrite NN; reflexivity|]. unfold ready. split; [reflexivity|]. split; [exact SO|]. split; [exact FO|].
    split; [|split; [exact NN|split; [exact PO|right; split; [intros ->; cbn in NN; lia|exact C]]]].
    intros row col. rewrite rcs_In by assumption. unfold mask_valid. split.
    + intros [IN H]. split; [exact IN|]. left. eauto.
    + intros (IN & [(ix' & K & H)|(F & _)]); [|exfalso; eapply full_not_compact; eauto].
      split; [exact IN|]. rewrite (compact_unique _ _ _ C K). exact H.
  - pose proof E as (R & CC & L & NN & CA & PO & PI & D). exists m, []. rewrite CA. cbn [obind]. rewrite PO. cbn [isnull negb].
    split; [rewrite NN; reflexivity|]. unfold ready. split; [reflexivity|]. split; [constructor|]. split; [constructor|].
    split; [|split; [exact NN|split; [exact PO|left; split; [reflexivity|exact E]]]].
    intros row col. unfold rcs, mask_valid. cbn [map In]. split; [contradiction|].
    intros (IN & [(ix' & K & H)|(F & _)]); [eapply compact_not_emptied; eauto|eapply full_not_emptied; eauto].
Qed.
End Positions.
