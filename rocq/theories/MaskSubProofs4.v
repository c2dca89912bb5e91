(** Masks with subsets: indices of shifted cells, data with too few layers. *)
From Coq Require Import ZArith QArith List Bool Lia Lqa ZifyBool Sorted.
From Verif Require Import Base RasterModel RasterSpec RasterProofs RasterProofs2 RasterProofs3 ListLib CoordModel CoordSpec CoordProofs
  MaskModel MaskSpec SubsetModel SubsetSpec SubsetProofs MaskProofs MaskProofs2 MaskProofs3 MaskProofs4 MaskProofs5 MaskSubModel MaskSubSpec
  MaskSubProofs MaskSubProofs2 MaskSubProofs3.
Import ListNotations.
Open Scope Z_scope.
Open Scope outcome_scope.

Lemma indexes_nth {T} (y : raster T) iy gi rc : compact y iy -> inside y (fst rc) (snd rc) -> 0 <= gi ->
  nth_error iy (Z.to_nat gi) = Some (fst rc * r_cols y + snd rc) -> indexes y gi rc.
Proof.
  intros CY IY B N.
  destruct (cell_cases y _ _ (or_introl (ex_intro _ iy CY)) IY) as [(g & IX & NU)|(P' & _)].
  - assert (g = gi); [|subst g; rewrite <- surjective_pairing in IX; exact IX].
    unfold number in NU. pose proof CY as (_&_&_&_&NC&_&_&PI&PO&SO&_). rewrite PO, PI in NU. cbn [isnull orb deref obind] in NU. apply aget_inv in NU.
    destruct NU as [G0 NU]. clear - SO N NU G0 B.
    destruct (Nat.lt_trichotomy (Z.to_nat g) (Z.to_nat gi)) as [H|[H|H]]; [|lia|].
    + pose proof (sorted_nth_lt _ _ _ _ _ SO NU N H). lia.
    + pose proof (sorted_nth_lt _ _ _ _ _ SO N NU H). lia.
  - exfalso. destruct (GetPosition_compact y iy _ _ CY IY) as [(g & P2 & B2 & _)|(_ & NI)]; [rewrite P' in P2; injection P2 as EP; clear - B2 EP; lia|].
    apply NI. eapply nth_error_In; eauto.
Qed.

(** The entry of the position list behind an index. *)
Lemma indexes_entry {T} (m : raster T) ix gi rc : compact m ix -> indexes m gi rc -> nth_error ix (Z.to_nat gi) = Some (fst rc * r_cols m + snd rc).
Proof.
  intros C (I & B & P & _).
  destruct (GetPosition_compact m ix _ _ C I) as [(g & P' & _ & N)|(P' & _)]; rewrite P in P'; injection P' as EP; [subst g; exact N|clear - B EP; lia].
Qed.

Lemma rcs_entry {T} (m : raster T) ix gi rc : compact m ix -> indexes m gi rc -> nth_error (rcs m ix) (Z.to_nat gi) = Some rc.
Proof.
  intros C IX. pose proof (indexes_entry m ix gi rc C IX) as N. unfold rcs. apply (map_nth_error (fun k => (k / r_cols m, k mod r_cols m))) in N. rewrite N.
  destruct IX as ((_ & CC) & _). rewrite div_rc, mod_rc by exact CC. rewrite <- surjective_pairing. reflexivity.
Qed.

Lemma indexes_shift {T M} (m : raster M) (y : raster T) ix gi rc r0 c0 w : compact m ix ->
  compact y (map (fun rc => (fst rc - r0) * w + (snd rc - c0)) (rcs m ix)) -> r_cols y = w ->
  inside y (fst rc - r0) (snd rc - c0) -> indexes m gi rc -> indexes y gi (fst rc - r0, snd rc - c0).
Proof.
  intros CM CY EW IN IX. eapply indexes_nth; [exact CY|exact IN|destruct IX as (_ & B & _); clear - B; lia|].
  pose proof (rcs_entry m ix gi rc CM IX) as N. apply (map_nth_error (fun rc => (fst rc - r0) * w + (snd rc - c0))) in N. rewrite N, EW. reflexivity.
Qed.

(** In a sorted list an entry is at least its place; one more if a smaller number
    is missing. *)
Lemma sorted_place : forall (l : list Z) b j x, StronglySorted Z.lt l -> Forall (fun y => b <= y) l -> nth_error l j = Some x -> b + Z.of_nat j <= x.
Proof.
  intros l. induction l as [|a l IH]; intros b j x S F N; [destruct j; discriminate|]. inversion S; subst. inversion F; subst. destruct j.
  - cbn in N. injection N as ->. lia.
  - cbn in N. assert (b + 1 + Z.of_nat j <= x); [|lia]. apply IH; auto. apply Forall_forall. intros y Y. rewrite Forall_forall in H2. specialize (H2 y Y). lia.
Qed.
Lemma sorted_missing : forall (l : list Z) b j x p, StronglySorted Z.lt l -> Forall (fun y => b <= y) l -> nth_error l j = Some x ->
  b <= p < x -> ~ In p l -> b + Z.of_nat j < x.
Proof.
  intros l. induction l as [|a l IH]; intros b j x p S F N P M; [destruct j; discriminate|]. inversion S; subst. inversion F; subst. 
  assert (F1 : Forall (fun y => a + 1 <= y) l) by (apply Forall_forall; intros y Y; rewrite Forall_forall in H2; specialize (H2 y Y); lia).
  destruct j.
  - cbn in N. injection N as ->. lia.
  - cbn in N. destruct (Z_lt_dec p a) as [L|L].
    + pose proof (sorted_place l (a + 1) j x H1 F1 N). lia.
    + assert (p <> a) by (intros ->; apply M; left; reflexivity).
      pose proof (IH (a + 1) j x p H1 F1 N ltac:(lia) (fun I => M (or_intror I))). lia.
Qed.

(** The valid cells in the numbering of a rectangle around all of them. *)
Lemma box_sorted {M} (m : raster M) ix r0 r1 c0 c1 : compact m ix -> (forall rc, In rc (rcs m ix) -> in_box r0 r1 c0 c1 (fst rc) (snd rc)) ->
  StronglySorted Z.lt (map (fun rc => (fst rc - r0) * (c1 - c0 + 1) + (snd rc - c0)) (rcs m ix)) /\
  Forall (fun y => 0 <= y) (map (fun rc => (fst rc - r0) * (c1 - c0 + 1) + (snd rc - c0)) (rcs m ix)).
Proof.
  intros C B. pose proof C as (_&PC&_&_&_&_&_&_&_&SO&_). unfold rcs in *. rewrite map_map in *. set (f := fun k => _). assert (INB : forall k, In k ix -> in_box r0 r1 c0 c1 (k / r_cols m) (k mod r_cols m)).
  { intros k I. apply (B (k / r_cols m, k mod r_cols m)). apply (in_map (fun k => (k / r_cols m, k mod r_cols m))). exact I. }
  clear B C. split.
  - induction SO as [|a l SO IH F]; [constructor|]. cbn [map]. constructor; [apply IH; intros; apply INB; right; assumption|].
    apply Forall_forall. intros y Y. apply in_map_iff in Y. destruct Y as (k & <- & I). rewrite Forall_forall in F. specialize (F k I).
    pose proof (INB a (or_introl eq_refl)) as IA. pose proof (INB k (or_intror I)) as IK. unfold f. cbn [fst snd].
    pose proof (Z.div_mod a (r_cols m) ltac:(lia)) as DA. pose proof (Z.div_mod k (r_cols m) ltac:(lia)) as DK.
    pose proof (Z.mod_pos_bound a (r_cols m) PC) as MA. pose proof (Z.mod_pos_bound k (r_cols m) PC) as MK.
    unfold in_box in *. set (qa := a / r_cols m) in *. set (qk := k / r_cols m) in *. set (ma := a mod r_cols m) in *. set (mk := k mod r_cols m) in *.
    assert (LE : qa <= qk). { unfold qa, qk. apply Z.div_le_mono; lia. }
    clear - LE DA DK F IA IK PC MA MK. destruct (Z.eq_dec qa qk) as [->|NE]; [|assert (qa + 1 <= qk) by lia; nia].
    assert (ma < mk) by lia. lia.
  - apply Forall_forall. intros y Y. apply in_map_iff in Y. destruct Y as (k & <- & I). pose proof (INB k I) as IK. unfold in_box in IK. unfold f. cbn [fst snd]. clear - IK. nia.
Qed.

Lemma rcs_valid {M} (feqM : M -> M -> bool) (m : raster M) ix rc : compact m ix -> In rc (rcs m ix) -> mask_valid feqM m (fst rc) (snd rc).
Proof.
  intros C I. unfold rcs in I. apply in_map_iff in I. destruct I as (k & <- & I). pose proof C as (_&PC&_&_&_&_&_&_&_&_&F). rewrite Forall_forall in F. specialize (F k I). cbn [fst snd].
  pose proof (Z.div_mod k (r_cols m) ltac:(lia)) as D. pose proof (Z.mod_pos_bound k (r_cols m) PC) as MB. split.
  - split; [|exact MB]. split; [apply Z.div_pos; lia|]. apply Z.div_lt_upper_bound; lia.
  - left. exists ix. split; [exact C|]. replace (k / r_cols m * r_cols m + k mod r_cols m) with k by lia. exact I.
Qed.

(** A cell of the rectangle that the mask leaves out moves all later indices. *)
Lemma index_behind {M} (feqM : M -> M -> bool) (m : raster M) ix r0 r1 c0 c1 gi rc a b : compact m ix ->
  (forall row col, mask_valid feqM m row col -> in_box r0 r1 c0 c1 row col) -> indexes m gi rc ->
  in_box r0 r1 c0 c1 a b -> ~ mask_valid feqM m a b -> (a < fst rc \/ a = fst rc /\ b < snd rc) ->
  gi < (fst rc - r0) * (c1 - c0 + 1) + (snd rc - c0).
Proof.
  intros C B IX IB NV LT.
  assert (BR : forall rc, In rc (rcs m ix) -> in_box r0 r1 c0 c1 (fst rc) (snd rc)) by (intros x I; apply B; eapply rcs_valid; eauto).
  destruct (box_sorted m ix r0 r1 c0 c1 C BR) as [SO FO].
  pose proof (rcs_entry m ix gi rc C IX) as N. pose proof (BR rc (nth_error_In _ _ N)) as IR.
  apply (map_nth_error (fun rc => (fst rc - r0) * (c1 - c0 + 1) + (snd rc - c0))) in N.
  assert (G0 : 0 <= gi) by (destruct IX as (_ & G & _); clear - G; lia).
  pose proof (sorted_missing _ 0 _ _ ((a - r0) * (c1 - c0 + 1) + (b - c0)) SO FO N) as H. 
  assert (H1 : 0 <= (a - r0) * (c1 - c0 + 1) + (b - c0) < (fst rc - r0) * (c1 - c0 + 1) + (snd rc - c0)).
  { unfold in_box in *. clear - IR IB LT. destruct LT as [LT|[-> LT]]; [assert (a + 1 <= fst rc) by lia|]; nia. }
  assert (H2 : ~ In ((a - r0) * (c1 - c0 + 1) + (b - c0)) (map (fun rc => (fst rc - r0) * (c1 - c0 + 1) + (snd rc - c0)) (rcs m ix))).
  { intros I. apply in_map_iff in I. destruct I as ([a' b'] & E & I). apply NV. pose proof (BR _ I) as IB'. apply (rcs_valid feqM m ix _ C) in I. cbn [fst snd] in *.
    assert (a' = a /\ b' = b) as [-> ->]; [|exact I]. unfold in_box in *. clear - E IB IB'.
    assert (a' = a) by (destruct (Z.lt_trichotomy a' a) as [L|[L|L]]; [assert (a' + 1 <= a) by lia; nia|exact L|assert (a + 1 <= a') by lia; nia]). subst. lia. }
  specialize (H H1 H2). clear - H G0. lia.
Qed.

(** Output of a subset with fewer layers than announced. *)
Lemma omapm_UB {A B} (f : A -> outcome B) l1 x l2 : (forall a, In a l1 -> f a = UB \/ exists b, f a = Ok b) -> f x = UB -> omapm f (l1 ++ x :: l2) = UB.
Proof.
  intros H X. induction l1 as [|a l1 IH]; cbn [omapm app].
  - rewrite X. reflexivity.
  - destruct (H a (or_introl eq_refl)) as [E|[b E]]; rewrite E; [reflexivity|]. cbn [obind]. rewrite IH by (intros; apply H; right; assumption). reflexivity.
Qed.

Lemma ofold_noThrow {A S} (f : S -> A -> outcome S) : (forall s a, f s a = UB \/ exists s', f s a = Ok s') -> forall l s, ofold f l s = UB \/ exists s', ofold f l s = Ok s'.
Proof.
  intros H l. induction l as [|a l IH]; intros s; cbn [ofold]; [right; eexists; reflexivity|].
  destruct (H s a) as [E|[s' E]]; rewrite E; cbn [obind]; [left; reflexivity|apply IH].
Qed.

Lemma aget_noThrow {A} (l : list A) i : aget l i = Throw -> False.
Proof. unfold aget. destruct (i <? 0); [discriminate|]. destruct (nth_error _ _); discriminate. Qed.

Lemma zseq_split n k : 0 <= k < n -> exists l2, zseq n = zseq k ++ k :: l2.
Proof.
  intros H. unfold zseq. exists (map Z.of_nat (seq (S (Z.to_nat k)) (Z.to_nat n - S (Z.to_nat k)))).
  replace (Z.to_nat n) with (Z.to_nat k + S (Z.to_nat n - S (Z.to_nat k)))%nat at 1 by lia.
  rewrite seq_app, map_app. cbn [seq map Nat.add]. rewrite Z2Nat.id by lia. reflexivity.
Qed.

Lemma output_short {T D} (conv : D -> T) nodata (s : subset D) li d2 : s_lidx s = Some li -> Z.of_nat (length li) = s_n s -> 1 <= s_n s ->
  s_data2 s = Some d2 -> Z.of_nat (length d2) = s_n s -> forall k, 0 <= k < s_lyrs s -> 1 < s_lyrs s ->
  Forall (fun row => Z.of_nat (length row) = k) d2 -> Output (fun x => Ok (conv x)) nodata s = UB.
Proof.
  intros LI LN N1 E2 L2 k K LY F. unfold Output. rewrite E2. cbn [isnull andb]. rewrite andb_false_r. cbv zeta.
  destruct (zseq_split (s_lyrs s) k K) as (l2 & ->). apply omapm_UB.
  - intros il _. apply ofold_noThrow. intros d vi. rewrite LI. cbn [deref obind].
    destruct (aget li vi) as [j| |] eqn:EJ; cbn [obind]; [|left; reflexivity|destruct (aget_noThrow _ _ EJ)].
    destruct (1 <? s_lyrs s) eqn:E1; [|lia]. cbn [andb negb].
    destruct (aget d2 vi) as [c| |] eqn:EC; cbn [obind]; [|left; reflexivity|destruct (aget_noThrow _ _ EC)].
    destruct (aget c il) as [x| |] eqn:EX; cbn [obind]; [|left; reflexivity|destruct (aget_noThrow _ _ EX)].
    unfold aset. destruct (_ <? 0); [left; reflexivity|]. destruct (_ <? _)%nat; [right; eexists; reflexivity|left; reflexivity].
  - destruct (zseq_split (s_n s) 0 ltac:(lia)) as (l3 & ->). change (zseq 0) with (@nil Z). cbn [app ofold]. rewrite LI. cbn [deref obind].
    destruct li as [|j li]; [cbn in LN; lia|]. destruct d2 as [|c d2]; [cbn in L2; lia|]. change (aget (j :: li) 0) with (Ok j). cbn [obind].
    destruct (1 <? s_lyrs s) eqn:E1; [|lia]. cbn [andb negb isnull deref obind]. change (aget (c :: d2) 0) with (Ok c). cbn [obind].
    inversion F as [|? ? EK _]; subst. unfold aget. destruct (_ <? 0); [reflexivity|]. rewrite (proj2 (nth_error_None c _)) by lia. reflexivity.
Qed.

(** Deciding the hypotheses for concrete rasters. *)
Lemma valid_iff {M} (feqM : M -> M -> bool) (m : raster M) ix row col : compact m ix -> (mask_valid feqM m row col <-> In (row, col) (rcs m ix)).
Proof.
  intros C. split; [|apply (rcs_valid feqM m ix (row, col) C)]. intros [[_ CC] [(ix' & C' & I)|(F & _)]].
  - assert (ix' = ix) as ->. { destruct C as (_&_&_&_&_&_&_&P&_), C' as (_&_&_&_&_&_&_&P'&_). congruence. }
    unfold rcs. apply in_map_iff. exists (row * r_cols m + col). split; [|exact I]. rewrite div_rc, mod_rc by exact CC. reflexivity.
  - exfalso. destruct C as (_&_&_&_&_&_&_&P&_), F as (_&_&_&_&_&_&P'). congruence.
Qed.

Lemma box_check {T M} (feq : T -> T -> bool) (feqM : M -> M -> bool) (m : raster M) (r : raster T) ix r0 r1 c0 c1 : compact m ix -> loaded r -> (0 < r_cs r)%Q ->
  feq (r_nodata r) (r_nodata r) = true ->
  let hs := filter (hitb feq m r) (rcs m ix) in
  forallb (fun rc => (r0 <=? fst rc) && (fst rc <=? r1) && (c0 <=? snd rc) && (snd rc <=? c1)) hs &&
    existsb (fun rc => fst rc =? r0) hs && existsb (fun rc => fst rc =? r1) hs && existsb (fun rc => snd rc =? c0) hs && existsb (fun rc => snd rc =? c1) hs = true ->
  match_box feq feqM r m r0 r1 c0 c1.
Proof.
  intros C L S ND hs H. repeat (apply andb_true_iff in H; destruct H as [H ?]).
  assert (HV : forall rc, In rc hs <-> mask_valid feqM m (fst rc) (snd rc) /\ matches feq r m (fst rc) (snd rc)).
  { intros [a b]. cbn [fst snd]. unfold hs. rewrite filter_In, (valid_iff feqM m ix a b C), (matches_hit feq r m a b L S ND). reflexivity. }
  rewrite forallb_forall in H. rewrite existsb_exists in *. destruct H3 as (x3 & I3 & E3), H2 as (x2 & I2 & E2), H1 as (x1 & I1 & E1), H0 as (x0 & I0 & E0).
  apply HV in I0, I1, I2, I3. apply Z.eqb_eq in E0, E1, E2, E3. subst.
  split; [intros a b V MA; specialize (H (a, b) (proj2 (HV (a, b)) (conj V MA))); cbn [fst snd] in H; lia|].
  split; [eexists; exact I3|]. split; [eexists; exact I2|]. split; eexists; eassumption.
Qed.

Definition rc_dec (x y : Z * Z) : {x = y} + {x <> y}.
Proof. decide equality; apply Z.eq_dec. Defined.
Definition tightb (cs : list (Z * Z)) (r0 r1 c0 c1 : Z) : bool :=
  forallb (fun rc => (r0 <=? fst rc) && (fst rc <=? r1) && (c0 <=? snd rc) && (snd rc <=? c1)) cs &&
    existsb (fun rc => fst rc =? r0) cs && existsb (fun rc => fst rc =? r1) cs && existsb (fun rc => snd rc =? c0) cs && existsb (fun rc => snd rc =? c1) cs.
Definition describesb {M D} (m : raster M) (ix : list Z) (s : subset D) (cs : list (Z * Z)) : bool :=
  match s_global s with
  | None => false
  | Some g =>
    (s_n s =? Z.of_nat (length g)) && (length g =? length cs)%nat &&
    forallb (fun p => (0 <=? fst p) && ValidateRowCol m (fst (snd p)) (snd (snd p)) &&
                      match nth_error ix (Z.to_nat (fst p)) with Some k => k =? fst (snd p) * r_cols m + snd (snd p) | None => false end) (combine g cs) &&
    match s_lpos s with Some lp => if list_eq_dec rc_dec lp (map (fun rc => (fst rc - s_srow s, snd rc - s_scol s)) cs) then true else false | None => false end &&
    match s_lidx s with Some li => if list_eq_dec Z.eq_dec li (map (fun rc => (fst rc - s_srow s) * win_cols s + (snd rc - s_scol s)) cs) then true else false | None => false end &&
    tightb cs (s_srow s) (s_erow s) (s_scol s) (s_ecol s)
  end.

Lemma describes_check {M D} (m : raster M) ix (s : subset D) cs : compact m ix -> describesb m ix s cs = true -> describes m s cs.
Proof.
  intros C H. unfold describesb in H. destruct (s_global s) as [g|] eqn:EG; [|discriminate].
  repeat (apply andb_true_iff in H; let X := fresh "X" in destruct H as [H X]). unfold tightb in X.
  destruct (s_lpos s) as [lp|] eqn:EP; [|discriminate]. destruct (s_lidx s) as [li|] eqn:EL; [|discriminate].
  destruct (list_eq_dec rc_dec lp _) as [->|] in X1; [|discriminate]. destruct (list_eq_dec Z.eq_dec li _) as [->|] in X0; [|discriminate].
  apply Nat.eqb_eq in X3. apply Z.eqb_eq in H. eexists g, _, _. split; [unfold subset_of; rewrite EG, EP, EL; split; [reflexivity|]; split; [reflexivity|]; split; [reflexivity|]; rewrite !map_length; auto|].
  split; [|split; [reflexivity|split; [reflexivity|]]].
  - rewrite forallb_forall in X2. clear - X2 X3 C. revert cs X2 X3. induction g as [|a g IH]; intros [|rc cs] X2 X3; try discriminate; constructor.
    + specialize (X2 (a, rc) (or_introl eq_refl)). cbn [fst snd] in X2. repeat (apply andb_true_iff in X2; let X := fresh "Y" in destruct X2 as [X2 X]).
      destruct (nth_error ix (Z.to_nat a)) as [k|] eqn:E; [|discriminate]. apply Z.eqb_eq in Y. subst k.
      apply (indexes_nth m ix); [exact C|apply vrc_true; exact Y0|lia|exact E].
    + apply IH; [|cbn [length] in X3; lia]. intros x I. apply X2. right. exact I.
  - repeat (apply andb_true_iff in X; let Y := fresh "Y" in destruct X as [X Y]). rewrite forallb_forall in X. rewrite existsb_exists in *.
    split; [intros rc I; specialize (X rc I); lia|].
    destruct Y2 as (x2 & I2 & E2), Y1 as (x1 & I1 & E1), Y0 as (x0 & I0 & E0), Y as (x & I & E). apply Z.eqb_eq in E, E0, E1, E2.
    repeat split; [exists x2|exists x1|exists x0|exists x]; auto.
Qed.
