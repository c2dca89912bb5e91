(** Proofs about combining subset files: what one file does. *)
From Coq Require Import ZArith QArith List Bool Lia Sorted ZifyBool ZifyNat Permutation.
From Verif Require Import Base ListLib RasterModel RasterSpec RasterProofs RasterProofs2 RasterProofs3 CoordModel SubsetModel SubsetSpec SubsetProofs SubsetProofs2 SubsetProofs3 SubsetProofs4 SubsetProofs5 SubsetProofs6 ComModel ComSpec.
Import ListNotations.
Open Scope Z_scope.
Open Scope outcome_scope.

Lemma filter_map {A B} (g : A -> B) (p : B -> bool) l : filter p (map g l) = map g (filter (fun x => p (g x)) l).
Proof. induction l as [|a l IH]; [reflexivity|]. cbn [map filter]. destruct (p (g a)); cbn [map]; rewrite IH; reflexivity. Qed.

Section File.
Context {T : Type}.
Variable feq : T -> T -> bool.

(** Cell [j] of a file. *)
Lemma file_read (q : raster T) : grid_file q -> exists d, r_data q = Some d /\ Z.of_nat (length d) = r_rows q * r_cols q /\
  forall j, 0 <= j < r_rows q * r_cols q -> exists v, nth_error d (Z.to_nat j) = Some v /\ read_cell q j 1 = Ok v.
Proof.
  clear feq. intros [(R & C & L & N & S & _) I]. unfold storage in S. rewrite I in S. destruct S as (L1 & d & D & LD). exists d. split; [exact D|]. split; [exact LD|].
  intros j B. destruct (nth_error d (Z.to_nat j)) as [v|] eqn:E; [|apply nth_error_None in E; lia].
  exists v. split; [reflexivity|]. unfold read_cell. rewrite I, D. cbn [deref obind]. apply aget_ok; [lia|exact E].
Qed.

(** The values that are not NoData are those of the valid cells. *)
Lemma file_values_map (q : raster T) d x : grid_file q -> r_data q = Some d ->
  file_values feq q = map (fun j => nth (Z.to_nat j) d x) (valid_idx feq q).
Proof.
  intros G D. destruct (file_read q G) as (d' & D' & L & R). assert (d' = d) by congruence. subst d'.
  unfold file_values. rewrite D. rewrite <- (map_nth_zseq d x) at 1. rewrite filter_map. f_equal. unfold valid_idx. rewrite L.
  apply filter_ext_in. intros j Hj. apply zseq_In in Hj. destruct (R j ltac:(lia)) as (v & E & RC). unfold validb. rewrite RC.
  rewrite (nth_error_nth _ _ x E). reflexivity.
Qed.

Lemma file_data (q : raster T) : grid_file q -> file_values feq q <> [] ->
  compact (compacted feq q) (valid_idx feq q) /\
  GetRasterData (compacted feq q) = Some (Z.of_nat (length (file_values feq q)), file_values feq q).
Proof.
  intros G NE. pose proof G as [F I]. destruct (file_read q G) as (d & D & L & R).
  destruct d as [|x d0] eqn:Ed; [exfalso; apply NE; unfold file_values; rewrite D; reflexivity|]. rewrite <- Ed in *. clear Ed d0.
  pose proof (file_values_map q d x G D) as FV. assert (NV : valid_idx feq q <> []) by (intros Z; rewrite Z in FV; apply NE; exact FV).
  split. { destruct (compacted_shape feq q F) as [[Z _]|[_ C]]; [congruence|exact C]. }
  unfold GetRasterData, compacted. rewrite I. cbn [r_data set_pos set_cells set_ncells r_is2d r_ncells]. rewrite I.
  rewrite FV, map_length. destruct (Z.of_nat (length (valid_idx feq q)) <=? 0) eqn:Z0; [destruct (valid_idx feq q); [congruence|cbn [length] in Z0; lia]|].
  cbn [negb]. do 2 f_equal. apply concat_single. intros j Hj. apply filter_In in Hj. destruct Hj as [Hj _]. apply zseq_In in Hj.
  destruct (R j ltac:(lia)) as (v & E & _). unfold row_of. rewrite I, D, E. f_equal. symmetry. apply nth_error_nth, E.
Qed.

(** A file without such values. *)
Lemma file_empty (q : raster T) ord : grid_file q -> file_values feq q = [] -> schedule 0 ord ->
  exists q', SetCalcPositions feq ord q = Ok (q', true) /\ GetRasterData q' = None /\ Destroy q' = UB.
Proof.
  intros G NE S. pose proof G as [F I]. destruct (file_read q G) as (d & D & L & R).
  pose proof F as (FR & FC & _). destruct d as [|x d0] eqn:Ed; [cbn [length] in L; nia|]. rewrite <- Ed in *. clear Ed d0.
  pose proof (file_values_map q d x G D) as FV. rewrite NE in FV. symmetry in FV. apply map_eq_nil in FV.
  exists (compacted feq q). assert (N0 : r_ncells (compacted feq q) = 0) by (unfold compacted; rewrite FV, I; reflexivity).
  split; [apply SetCalcPositions_full; [exact F|rewrite N0; exact S]|].
  unfold GetRasterData, Destroy, compacted. rewrite FV, I. cbn. split; reflexivity.
Qed.
End File.

Section Put.
Context {T D : Type}.
Variable feq : T -> T -> bool.
Variable toD : T -> D.
Variable dNODATA : D.

(** A subset whose own array, if it has one, has its number of cells. *)
Definition sized (s : subset D) : Prop := 0 < s_n s /\ match s_data s with Some d => Z.of_nat (length d) = s_n s | None => True end.

Lemma set_data (s : subset D) (vs : list T) : sized s ->
  SetData toD dNODATA s (Z.of_nat (length vs)) (Some vs) =
  Ok (if Z.of_nat (length vs) =? s_n s then (set_sdata s 1 (Some (map toD vs)) (s_data2 s) true, true) else (s, false)).
Proof.
  intros [P S]. unfold SetData. destruct (Z.of_nat (length vs) =? s_n s) eqn:E; [|reflexivity]. cbn [negb]. apply Z.eqb_eq in E.
  set (old := match s_data s with Some o => o | None => match init1d None (s_n s) dNODATA with Some a => a | None => [] end end).
  assert (LO : Z.of_nat (length old) = s_n s).
  { unfold old. destruct (s_data s) as [o|]; [exact S|]. unfold init1d. destruct (s_n s <=? 0) eqn:Q; [lia|]. rewrite repeat_length. lia. }
  destruct vs as [|x vs0] eqn:Ev; [cbn [length] in E; lia|]. rewrite <- Ev in *. clear Ev vs0.
  rewrite (ofold_fill _ (fun i => toD (nth (Z.to_nat i) vs x))).
  - cbn [obind]. do 4 f_equal. rewrite <- E. apply (map_nth_f toD).
  - lia.
  - intros b i Bi _. rewrite (aget_ok _ i (nth (Z.to_nat i) vs x)); [reflexivity|lia|]. apply nth_error_nth'. lia.
Qed.

Definition filled (s : subset D) (vs : list T) : subset D := set_sdata s 1 (Some (map toD vs)) (s_data2 s) true.

Lemma put_usable (subs : list (Z * subset D)) (f : infile T) s q : zfind subs (i_id f) = Some s -> i_ras f = Some q -> sized s -> usable_file feq f ->
  put_file feq toD dNODATA subs f =
  Ok (replace_sub subs (i_id f) (if Z.of_nat (length (file_values feq q)) =? s_n s then filled s (file_values feq q) else s)).
Proof.
  intros Z Q S U. unfold usable_file in U. rewrite Q in U. destruct U as (G & NE & SC). unfold put_file. rewrite Z, Q.
  destruct (file_data feq q G NE) as [CP GD].
  assert (NC : r_ncells (compacted feq q) = Z.of_nat (length (file_values feq q))).
  { revert GD. unfold GetRasterData. destruct (r_data (compacted feq q)); [|discriminate]. destruct (negb (r_is2d (compacted feq q))); [|discriminate]. congruence. }
  rewrite (SetCalcPositions_full feq q (i_ord f)); [|apply G|rewrite NC; exact SC]. cbn [obind fst]. rewrite GD. cbn [fst snd].
  rewrite set_data by exact S. cbn [obind]. rewrite (destroy_ok (compacted feq q)); [|right; eauto]. cbn [obind].
  destruct (Z.of_nat (length (file_values feq q)) =? s_n s); reflexivity.
Qed.
End Put.
