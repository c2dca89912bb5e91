From Coq Require Import ZArith List Bool Lia Permutation ZifyBool.
From Verif Require Import Base RasterModel RasterSpec ListLib RasterProofs RasterProofs2 MathModel ParModel ParSpec ParProofs ParProofs2 ParProofs3.
Import ListNotations.
Open Scope Z_scope.

Section L.
Context {T D R : Type}.
Implicit Types (m : mem T D).

(** The loop after dropping NoData cells and the model that runs it in order. *)
Lemma compact_seq (feq : T -> T -> bool) (r r' : raster T) ord vs m0 : full_grid r -> collect_valid feq r = Ok vs ->
  schedule (Z.of_nat (length vs)) ord -> CalculateValidPositions feq ord r = Ok r' -> collected m0 vs ->
  (if r_is2d r then there2 m0 A_raster2 (Z.of_nat (length vs)) (r_nlyrs r) else there1 m0 A_raster (Z.of_nat (length vs))) ->
  there2 m0 A_pos (Z.of_nat (length vs)) 2 -> there1 m0 A_posidx (Z.of_nat (length vs)) ->
  exists m1, parallel_for (Z.of_nat (length vs)) (@ParModel.compact T D R (r_is2d r) (r_nlyrs r) (r_cols r)) m0 m1 (fun _ => []) /\ shows m1 r' /\ shows_pos m1 r'.
Proof.
  intros F CV S E C T1 T2 T3. pose proof F as (H1&H2&H3&H4&HS&HPo&HPi).
  rewrite (collect_ok feq r _ HS) in CV by lia. injection CV as CV. fold (valid_idx feq r) in CV. set (ks := valid_idx feq r) in *.
  assert (LEN : length vs = length ks) by (rewrite <- CV; apply map_length). rewrite (CalculateValidPositions_full feq r ord F) in E by (fold ks; rewrite <- LEN; exact S). injection E as <-.
  assert (Hks : forall k, In k ks -> 0 <= k < r_rows r * r_cols r) by (intros k Hk; apply filter_In in Hk; apply zseq_In; tauto).
  set (key := fun i => nth (Z.to_nat i) ks 0). set (n := Z.of_nat (length vs)) in *.
  assert (KEY : forall i, 0 <= i < n -> nth_error ks (Z.to_nat i) = Some (key i)) by (intros i B; apply nth_error_nth'; lia).
  assert (ROW : forall i j, 0 <= i < n -> 0 <= j < r_nlyrs r -> nth_error (row_of r (key i)) (Z.to_nat j) = Some (nth (Z.to_nat j) (row_of r (key i)) (r_nodata r))).
  { intros i j B J. destruct (row_of_nth r _ (key i) 1 HS (Hks _ (nth_error_In _ _ (KEY i B)))) as (_&_&_&L); [unfold layer_ok; lia|]. apply nth_error_nth'. lia. }
  assert (CELL : forall i, 0 <= i < n -> aget vs i = Ok (mkVcell (key i / r_cols r) (key i mod r_cols r) (row_of r (key i)))).
  { intros i B. apply aget_ok; [lia|]. rewrite <- CV, nth_error_map, (KEY i B). reflexivity. }
  set (g := fun i j => nth (Z.to_nat j) (row_of r (key i)) (r_nodata r)).
  assert (VAL : forall i j, 0 <= i < n -> 0 <= j < r_nlyrs r -> m0 (if j =? 0 then (A_vals, i, 0) else (A_vals2, i, j - 1)) = Some (WT (g i j))).
  { intros i j B J. destruct (C i _ (CELL i B)) as (_&_&V). apply V. cbn [vc_vals]. apply aget_ok; [lia|]. apply ROW; lia. }
  assert (DM : forall i, key i / r_cols r * r_cols r + key i mod r_cols r = key i) by (intros i; pose proof (Z.div_mod (key i) (r_cols r)); lia).
  eexists. split; [apply (compact_par (r_is2d r) (r_nlyrs r) (r_cols r) n m0 (fun i => g i 0) (fun i j => g i (j + 1)) (fun i => key i / r_cols r) (fun i => key i mod r_cols r))|].
  - lia.
  - intros i B. apply (VAL i 0 B). lia.
  - intros _ i j B J. generalize (VAL i (j + 1) B ltac:(lia)). destruct (Z.eqb_spec (j + 1) 0); [lia|]. replace (j + 1 - 1) with j by lia. auto.
  - intros i B. apply (C i _ (CELL i B)).
  - intros i B. apply (C i _ (CELL i B)).
  - exact T1.
  - exact T2.
  - exact T3.
  - split.
    + unfold shows, compacted. fold ks. destruct (r_is2d r) eqn:D2; cbn [r_is2d r_data r_data2d set_pos set_cells set_ncells]; rewrite D2.
      * intros d i row lyr x Q A1 A2. injection Q as <-. apply aget_inv in A1. destruct A1 as [P1 A1]. rewrite nth_error_map in A1. assert (B : 0 <= i < n). { split; [lia|]. destruct (nth_error ks (Z.to_nat i)) eqn:Q; [|discriminate]. assert (Z.to_nat i < length ks)%nat by (apply nth_error_Some; congruence). lia. }
        rewrite (KEY i B) in A1. cbn [option_map] in A1. injection A1 as <-. apply aget_inv in A2. destruct A2 as [P2 A2]. destruct (row_of_nth r _ (key i) 1 HS (Hks _ (nth_error_In _ _ (KEY i B)))) as (_&_&_&L); [unfold layer_ok; lia|].
        assert (J : (Z.to_nat lyr < length (row_of r (key i)))%nat) by (apply nth_error_Some; congruence). unfold updated, or_else. cbn. 
        replace (within i n && within lyr (r_nlyrs r)) with true by (unfold within; lia). cbn. f_equal. f_equal. unfold g. destruct (Z.eqb_spec lyr 0) as [->|N]; [|replace (lyr - 1 + 1) with lyr by lia]; apply nth_error_nth, A2.
      * intros d i x Q A1. destruct (Z.of_nat (length ks) <=? 0) eqn:NZ; [discriminate|]. injection Q as <-. apply aget_inv in A1. destruct A1 as [P1 A1].
        assert (LY : r_nlyrs r = 1) by (unfold storage in HS; rewrite D2 in HS; tauto).
        rewrite (concat_single _ (fun k => nth 0 (row_of r k) (r_nodata r))) in A1.
        2:{ intros k Hk. destruct (row_of_nth r _ k 1 HS (Hks k Hk)) as (_&_&_&L); [unfold layer_ok; lia|]. destruct (row_of r k) as [|x0 [|]]; cbn [length] in L; try lia. reflexivity. }
        rewrite nth_error_map in A1. assert (B : 0 <= i < n). { split; [lia|]. destruct (nth_error ks (Z.to_nat i)) eqn:Q; [|discriminate]. assert (Z.to_nat i < length ks)%nat by (apply nth_error_Some; congruence). lia. }
        rewrite (KEY i B) in A1. cbn [option_map] in A1. injection A1 as <-. unfold updated, or_else. cbn. replace (within i n) with true by (unfold within; lia). reflexivity.
    + assert (AWAY : forall x, x = A_pos \/ x = A_posidx -> forall i j, (if r_is2d r then new2 A_raster2 n (r_nlyrs r) (fun i j => WT (if j =? 0 then g i 0 else g i (j - 1 + 1))) else new1 A_raster n (fun i => WT (g i 0))) (x, i, j) = (None : option (word T D))).
      { intros x X i j. destruct (r_is2d r); [apply new2_none; intros ? ? _ _ Q|apply newc_none; intros ? _ Q]; destruct X as [->| ->]; congruence. }
      split.
      * intros p i a b Q A1. assert (Q' : p = map (fun k => (k / r_cols r, k mod r_cols r)) ks) by (unfold compacted in Q; fold ks in Q; cbn [r_pos set_pos] in Q; congruence). subst p. apply aget_inv in A1. destruct A1 as [P1 A1]. rewrite nth_error_map in A1.
        assert (B : 0 <= i < n). { split; [lia|]. destruct (nth_error ks (Z.to_nat i)) eqn:Q'; [|discriminate]. assert (Z.to_nat i < length ks)%nat by (apply nth_error_Some; congruence). lia. }
        rewrite (KEY i B) in A1. cbn [option_map] in A1. injection A1 as <- <-. unfold updated, or_else. rewrite !AWAY by auto. cbn. replace (within i n) with true by (unfold within; lia). split; reflexivity.
      * intros ix i z Q A1. assert (Q' : ix = ks) by (unfold compacted in Q; fold ks in Q; cbn [r_posidx set_pos] in Q; destruct (Z.of_nat (length ks) <=? 0); congruence). subst ix. apply aget_inv in A1. destruct A1 as [P1 A1].
        assert (B : 0 <= i < n) by (split; [lia|]; assert (Z.to_nat i < length ks)%nat by (apply nth_error_Some; congruence); lia).
        rewrite (KEY i B) in A1. injection A1 as <-. unfold updated, or_else. rewrite !AWAY by auto. cbn. replace (within i n) with true by (unfold within; lia). rewrite DM. reflexivity.
Qed.
End L.

(** Teams of threads whose accesses are interleaved, and the teams of MathModel.v. *)
Section Teams.
Context {T D R : Type}.
Fixpoint team_of (s : tree) (chunks : list (list Z)) : team :=
  match s with Leaf t => Thread (map Z.to_nat (nth t chunks [])) | Node a b => Combine (team_of a chunks) (team_of b chunks) end.
Lemma team_iterations s : forall chunks, iterations (team_of s chunks) = map Z.to_nat (concat (map (fun t => nth t chunks []) (leaves s))).
Proof. induction s as [t|a IA b IB]; intros c; cbn [team_of iterations leaves map concat]; [rewrite app_nil_r; reflexivity|]. rewrite IA, IB, map_app, concat_app, map_app. reflexivity. Qed.
Lemma nth_all {A} (l : list (list A)) : map (fun t => nth t l []) (seq 0 (length l)) = l.
Proof.
  apply nth_ext with (d := []) (d' := []); [rewrite map_length, seq_length; reflexivity|]. intros n H. rewrite map_length, seq_length in H.
  rewrite (nth_indep _ [] ((fun t => nth t l []) 0%nat)) by (rewrite map_length, seq_length; exact H). rewrite (map_nth (fun t => nth t l [])). rewrite seq_nth by exact H. reflexivity.
Qed.
Lemma perm_concat {A} (a b : list (list A)) : Permutation a b -> Permutation (concat a) (concat b).
Proof. induction 1; cbn [concat]; [constructor|apply Permutation_app_head; assumption|rewrite !app_assoc; apply Permutation_app_tail, Permutation_app_comm|etransitivity; eassumption]. Qed.
Lemma zseq_nats n : map Z.to_nat (zseq n) = seq 0 (Z.to_nat n).
Proof. unfold zseq. rewrite map_map. erewrite map_ext; [apply map_id|]. intros a. apply Nat2Z.id. Qed.

Theorem teams n (body : Z -> prog T D R) m0 m1 added (term : nat -> outcome (option R)) : parallel_for n body m0 m1 added ->
  (forall i, 0 <= i < n -> exists v, term (Z.to_nat i) = Ok v /\ added i = match v with Some x => [x] | None => [] end) ->
  forall chunks tr m ps, Permutation (concat chunks) (zseq n) -> exec m0 (start body chunks) tr m ps -> finished ps ->
  forall s, Permutation (leaves s) (seq 0 (length ps)) ->
  exists t, Permutation (iterations t) (seq 0 (Z.to_nat n)) /\ forall add zero, combined add zero s ps = partial add zero term t.
Proof.
  intros H TM chunks tr m ps P X F s PS. destruct (H chunks tr m ps P X) as (_ & _ & E & _). destruct (E F) as (_ & RES).
  assert (LEN : length ps = length chunks) by (transitivity (length (map snd ps)); [symmetry; apply map_length|rewrite RES; apply map_length]). rewrite LEN in PS.
  exists (team_of s chunks). split.
  - rewrite team_iterations, <- zseq_nats. apply Permutation_map. rewrite <- P. apply perm_concat. etransitivity; [apply Permutation_map, PS|]. rewrite nth_all. reflexivity.
  - intros add zero. assert (B : forall t, In t (leaves s) -> (t < length chunks)%nat) by (intros t I; apply (Permutation_in _ PS) in I; apply in_seq in I; lia).
    assert (IN : forall t i, (t < length chunks)%nat -> In i (nth t chunks []) -> 0 <= i < n).
    { intros t i L I. apply zseq_In. apply (Permutation_in _ P). apply in_concat. exists (nth t chunks []). split; [apply nth_In, L|exact I]. }
    clear PS. induction s as [t|a IA b IB]; cbn [combined team_of partial].
    + specialize (B t (or_introl eq_refl)). specialize (IN t). assert (NT : nth_error (map snd ps) t = Some (concat (map added (nth t chunks [])))).
      { rewrite RES, nth_error_map, (nth_error_nth' chunks []) by exact B. reflexivity. }
      rewrite nth_error_map in NT. unfold thread in *. destruct (nth_error ps t) as [th|]; [|discriminate]. cbn [option_map] in NT. assert (NT' : snd th = concat (map added (nth t chunks []))) by congruence. rewrite NT'. clear NT NT'.
      specialize (fun i => IN i B). revert IN. generalize (nth t chunks []) (Ok zero). induction l as [|i l IL]; intros acc IN; [reflexivity|]. cbn [map concat fold_left]. rewrite fold_left_app, <- IL by (intros j J; apply IN; right; exact J). f_equal.
      destruct (TM i (IN i (or_introl eq_refl))) as (v & -> & ->). destruct v as [x|]; cbn [fold_left]; destruct acc; reflexivity.
    + rewrite IA, IB by (intros t I; apply B; apply in_or_app; auto). reflexivity.
Qed.
End Teams.
