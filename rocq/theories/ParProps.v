(** C149: the parallel loops have no data races and no result depends on how the accesses of
    the threads follow each other. *)
From Coq Require Import ZArith List Bool Lia Permutation.
From Verif Require Import Base RasterModel RasterSpec ListLib RasterProofs2 MathModel MathSpec ParModel ParSpec ParProofs ParProofs2 ParProofs3 ParProofs4.
Import ListNotations.
Open Scope Z_scope.

(** ** C149. Arrays: Initialize1DArray and Initialize2DArray with a value, from an array, from
    a table. *)
Theorem C149_init : forall (T D R : Type) (init : T) n (m0 : mem T D), there1 m0 A_data n ->
  parallel_for n (@init1 T D R init) m0 (updated m0 (new1 A_data n (fun _ => WT init))) (fun _ => []).
Proof. intros. apply init_par. assumption. Qed.
Print Assumptions C149_init.
Theorem C149_copy : forall (T D R : Type) (cast : D -> T) n (m0 : mem T D) f, there1 m0 A_data n -> holds1 m0 A_init n (fun i => WD (f i)) ->
  parallel_for n (@copy1 T D R cast) m0 (updated m0 (new1 A_data n (fun i => WT (cast (f i))))) (fun _ => []).
Proof. intros. apply copy_par; assumption. Qed.
Print Assumptions C149_copy.
Theorem C149_copy2 : forall (T D R : Type) (cast : D -> T) n k (m0 : mem T D) f, there2 m0 A_data n k -> holds2 m0 A_init n k (fun i j => WD (f i j)) ->
  parallel_for n (@copy2 T D R cast k) m0 (updated m0 (new2 A_data n k (fun i j => WT (cast (f i j))))) (fun _ => []).
Proof. intros. apply copy2_par; assumption. Qed.
Print Assumptions C149_copy2.

(** Sums and deviations: what is added, and nothing changes. *)
Theorem C149_sum : forall (T D R : Type) (num : T -> R) n (m0 : mem T D) f, holds1 m0 A_data n (fun i => WT (f i)) ->
  parallel_for n (sum1 num) m0 m0 (fun i => [num (f i)]).
Proof. intros. apply sum_par. assumption. Qed.
Print Assumptions C149_sum.
Theorem C149_sum_idx : forall (T D R : Type) (num : T -> R) n (m0 : mem T D) g f, holds1 m0 A_idx n (fun i => WI (g i)) ->
  (forall i, 0 <= i < n -> m0 (A_data, g i, 0) = Some (WT (f i))) ->
  parallel_for n (sum_idx num) m0 m0 (fun i => [num (f i)]).
Proof. intros. eapply sum_idx_par; eassumption. Qed.
Print Assumptions C149_sum_idx.
Theorem C149_std : forall (T D R : Type) (ex : T -> bool) (dev : T -> T -> R) n (m0 : mem T D) f, holds1 m0 A_data n (fun i => WT (f i)) ->
  parallel_for n (std1 ex dev) m0 m0 (fun i => if ex (f i) then [] else [dev (f i) (f i)]).
Proof. intros. apply std1_par. assumption. Qed.
Print Assumptions C149_std.
Theorem C149_std_layer : forall (T D R : Type) (ex : T -> bool) (dev : T -> D -> T -> D -> R) j n (m0 : mem T D) f mean,
  (forall i, 0 <= i < n -> m0 (A_data, i, j) = Some (WT (f i))) -> m0 (A_stats, 1, j) = Some (WD mean) ->
  parallel_for n (std2 ex dev j) m0 m0 (fun i => if ex (f i) then [] else [dev (f i) mean (f i) mean]).
Proof. intros. apply std2_par; assumption. Qed.
Print Assumptions C149_std_layer.

(** Conversion to the type of a GeoTIFF file, if the conversion of every cell is defined
    (C46). *)
Theorem C149_convert : forall (T D R : Type) (is_old : T -> bool) change illegal (cast : T -> option D) code (one : R) n (m0 : mem T D) f g,
  there1 m0 A_new n -> holds1 m0 A_data n (fun i => WT (f i)) ->
  (forall i, 0 <= i < n -> (is_old (f i) && change = true /\ g i = code) \/ (is_old (f i) && change = false /\ cast (f i) = Some (g i))) ->
  parallel_for n (convert is_old change illegal cast code one) m0 (updated m0 (new1 A_new n (fun i => WD (g i))))
    (fun i => if is_old (f i) && change then [] else if illegal (f i) then [one] else []).
Proof. intros. apply convert_par; assumption. Qed.
Print Assumptions C149_convert.

(** Layers from files. *)
Theorem C149_first_layer : forall (T D R : Type) n (m0 : mem T D) f, holds1 m0 A_raster n (fun i => WT (f i)) -> there1 m0 A_raster2 n ->
  parallel_for n (@first_layer T D R) m0 (updated m0 (new1 A_raster2 n (fun i => WT (f i)))) (fun _ => []).
Proof. intros. apply first_par; assumption. Qed.
Print Assumptions C149_first_layer.
Theorem C149_layer_pos : forall (T D R : Type) place (is_lnd : T -> bool) nd cols lyr n (m0 : mem T D) (p : Z -> Z) (g : Z -> T),
  (forall i, 0 <= i < n -> m0 (A_raster2, i, lyr) <> None) -> holds1 m0 A_posidx n (fun i => WI (p i)) ->
  (forall i j, 0 <= i < n -> place (Z.quot (p i) cols) (Z.rem (p i) cols) = Some j -> m0 (A_layer, j, 0) = Some (WT (g j))) ->
  parallel_for n (@layer_pos T D R place is_lnd nd cols lyr) m0
    (updated m0 (newc A_raster2 n lyr (fun i => WT (match place (Z.quot (p i) cols) (Z.rem (p i) cols) with Some j => if is_lnd (g j) then nd else g j | None => nd end)))) (fun _ => []).
Proof. intros. apply layer_pos_par; assumption. Qed.
Print Assumptions C149_layer_pos.
Theorem C149_layer_row : forall (T D R : Type) place (is_lnd is_nd : T -> bool) nd rows cols lyr (m0 : mem T D) (f g : Z -> T), 0 < lyr -> 0 <= cols ->
  (forall i, 0 <= i < rows * cols -> m0 (A_raster2, i, lyr) <> None) -> holds1 m0 A_raster2 (rows * cols) (fun i => WT (f i)) ->
  (forall r c j, 0 <= r < rows -> 0 <= c < cols -> is_nd (f (r * cols + c)) = false -> place r c = Some j -> m0 (A_layer, j, 0) = Some (WT (g j))) ->
  parallel_for rows (@layer_row T D R place is_lnd is_nd nd cols lyr) m0
    (updated m0 (newc A_raster2 (rows * cols) lyr (fun i => WT (if is_nd (f i) then nd else match place (i / cols) (i mod cols) with Some j => if is_lnd (g j) then nd else g j | None => nd end)))) (fun _ => []).
Proof. intros. apply layer_row_par; assumption. Qed.
Print Assumptions C149_layer_row.

(** Reading from GridFS. *)
Theorem C149_db : forall (T D R : Type) (cast : T -> T) n (m0 : mem T D) g f, holds1 m0 A_posidx n (fun i => WI (g i)) ->
  (forall i, 0 <= i < n -> m0 (A_db, g i, 0) = Some (WT (f i))) -> there1 m0 A_raster n ->
  parallel_for n (@from_db1 T D R cast) m0 (updated m0 (new1 A_raster n (fun i => WT (cast (f i))))) (fun _ => []).
Proof. intros. eapply db1_par; eassumption. Qed.
Print Assumptions C149_db.
Theorem C149_db_layers : forall (T D R : Type) (by_pos : bool) n k (m0 : mem T D) (g : Z -> Z) f,
  (by_pos = true -> holds1 m0 A_posidx n (fun i => WI (g i))) -> (by_pos = false -> forall i, 0 <= i < n -> g i = i) ->
  (forall i j, 0 <= i < n -> 0 <= j < k -> m0 (A_db, g i * k + j, 0) = Some (WT (f i j))) -> there2 m0 A_raster2 n k ->
  parallel_for n (@from_db2 T D R by_pos k) m0 (updated m0 (new2 A_raster2 n k (fun i j => WT (f i j)))) (fun _ => []).
Proof. intros. eapply db2_par; eassumption. Qed.
Print Assumptions C149_db_layers.

(** Dropping NoData cells. *)
Theorem C149_compact : forall (T D R : Type) (two : bool) lyrs cols n (m0 : mem T D) (f : Z -> T) (f2 : Z -> Z -> T) (pr pc : Z -> Z), 0 < lyrs ->
  holds1 m0 A_vals n (fun i => WT (f i)) -> (two = true -> holds2 m0 A_vals2 n (lyrs - 1) (fun i j => WT (f2 i j))) ->
  holds1 m0 A_prow n (fun i => WI (pr i)) -> holds1 m0 A_pcol n (fun i => WI (pc i)) ->
  (if two then there2 m0 A_raster2 n lyrs else there1 m0 A_raster n) -> there2 m0 A_pos n 2 -> there1 m0 A_posidx n ->
  parallel_for n (@ParModel.compact T D R two lyrs cols) m0
    (updated m0 (or_else (if two then new2 A_raster2 n lyrs (fun i j => WT (if j =? 0 then f i else f2 i (j - 1))) else new1 A_raster n (fun i => WT (f i)))
                (or_else (new2 A_pos n 2 (fun i j => WI (if j =? 0 then pr i else pc i))) (new1 A_posidx n (fun i => WI (pr i * cols + pc i)))))) (fun _ => []).
Proof. intros. apply compact_par; assumption. Qed.
Print Assumptions C149_compact.

(** With the model of C22, which collects the valid cells and then runs the iterations one
    after the other: when the collected values and positions are in memory and the new arrays
    exist, the loop leaves the cells and positions of that model. *)
Theorem C149_compact_seq : forall (T D R : Type) (feq : T -> T -> bool) (r r' : raster T) ord vs (m0 : mem T D), full_grid r -> collect_valid feq r = Ok vs ->
  schedule (Z.of_nat (length vs)) ord -> CalculateValidPositions feq ord r = Ok r' -> collected m0 vs ->
  (if r_is2d r then there2 m0 A_raster2 (Z.of_nat (length vs)) (r_nlyrs r) else there1 m0 A_raster (Z.of_nat (length vs))) ->
  there2 m0 A_pos (Z.of_nat (length vs)) 2 -> there1 m0 A_posidx (Z.of_nat (length vs)) ->
  exists m1, parallel_for (Z.of_nat (length vs)) (@ParModel.compact T D R (r_is2d r) (r_nlyrs r) (r_cols r)) m0 m1 (fun _ => []) /\ shows m1 r' /\ shows_pos m1 r'.
Proof. intros T D R feq r r' ord vs m0. apply compact_seq. Qed.
Print Assumptions C149_compact_seq.

(** ReplaceNoData: with the model of C24, which runs the iterations one after the other. *)
Theorem C149_replace : forall (T D R : Type) (feq : T -> T -> bool) (r r' : raster T) v ord (m0 : mem T D), wf r -> shows m0 r ->
  schedule (r_ncells r) ord -> ReplaceNoData feq ord r v = Ok r' ->
  exists m1, parallel_for (r_ncells r) (@replace T D R (r_is2d r) (fun x => feq x (r_nodata r)) v (r_nlyrs r)) m0 m1 (fun _ => []) /\ shows m1 r' /\
    forall b i j, b <> (if r_is2d r then A_raster2 else A_raster) -> m1 (b, i, j) = m0 (b, i, j).
Proof.
  intros T D R feq r r' v ord m0 W S O E. rewrite (ReplaceNoData_wf feq r v ord W O) in E. injection E as <-.
  destruct (wf_storage r W) as [(n & ST & ->)|EM].
  - unfold storage in ST. unfold shows, replaced, map_cells. unfold shows in S. destruct (r_is2d r) eqn:D2.
    + destruct ST as (d & Dd & Ln & FA). set (f := fun i j => nth (Z.to_nat j) (nth (Z.to_nat i) d []) (r_nodata r)).
      eexists. split; [apply (replace2_par _ _ _ _ _ f)|split].
      * intros i j B C. assert (NI : nth_error d (Z.to_nat i) = Some (nth (Z.to_nat i) d [])) by (apply nth_error_nth'; lia).
        assert (LR : Z.of_nat (length (nth (Z.to_nat i) d [])) = r_nlyrs r) by (rewrite Forall_forall in FA; apply FA; eapply nth_error_In, NI).
        apply (S d i (nth (Z.to_nat i) d []) j (f i j) Dd).
        -- unfold aget. destruct (Z.ltb_spec i 0); [lia|]. rewrite NI. reflexivity.
        -- unfold aget. destruct (Z.ltb_spec j 0); [lia|]. unfold f. rewrite (nth_error_nth' _ (r_nodata r)) by lia. reflexivity.
      * cbn [r_is2d set_nodata set_cells]. rewrite D2. cbn [r_data2d set_nodata set_cells]. intros d' i row lyr x E A1 A2. rewrite Dd in E. cbn [option_map] in E. injection E as <-.
        unfold aget in A1. destruct (Z.ltb_spec i 0); [discriminate|]. rewrite nth_error_map in A1. destruct (nth_error d (Z.to_nat i)) as [r0|] eqn:NI; [|discriminate]. cbn [option_map] in A1. injection A1 as <-.
        unfold aget in A2. destruct (Z.ltb_spec lyr 0); [discriminate|]. rewrite nth_error_map in A2. destruct (nth_error r0 (Z.to_nat lyr)) as [x0|] eqn:NJ; [|discriminate]. cbn [option_map] in A2. injection A2 as <-.
        assert (LI : (Z.to_nat i < length d)%nat) by (apply nth_error_Some; congruence). assert (LR : Z.of_nat (length r0) = r_nlyrs r) by (rewrite Forall_forall in FA; apply FA; eapply nth_error_In, NI).
        assert (LJ : (Z.to_nat lyr < length r0)%nat) by (apply nth_error_Some; congruence). rewrite new2_at by lia. unfold f. rewrite (nth_error_nth _ _ _ NI), (nth_error_nth _ _ _ NJ). unfold rep. destruct (feq x0 (r_nodata r)); reflexivity.
      * intros b i j N. apply updated_none, new2_none. intros i' j' _ _ Q. congruence.
    + destruct ST as (L1 & d & Dd & Ln). set (f := fun i => nth (Z.to_nat i) d (r_nodata r)).
      eexists. split; [apply (replace1_par _ _ _ _ _ f); [lia|]|split].
      * intros i B. apply (S d i (f i) Dd). unfold aget. destruct (Z.ltb_spec i 0); [lia|]. unfold f. rewrite (nth_error_nth' _ (r_nodata r)) by lia. reflexivity.
      * cbn [r_is2d set_nodata set_cells]. rewrite D2. cbn [r_data set_nodata set_cells]. intros d' i x E A1. rewrite Dd in E. cbn [option_map] in E. injection E as <-.
        unfold aget in A1. destruct (Z.ltb_spec i 0); [discriminate|]. rewrite nth_error_map in A1. destruct (nth_error d (Z.to_nat i)) as [x0|] eqn:NI; [|discriminate]. cbn [option_map] in A1. injection A1 as <-.
        assert (LI : (Z.to_nat i < length d)%nat) by (apply nth_error_Some; congruence). unfold new1. rewrite newc_at by lia. unfold f. rewrite (nth_error_nth _ _ _ NI). unfold rep. destruct (feq x0 (r_nodata r)); reflexivity.
      * intros b i j N. apply updated_none, newc_none. intros i' _ Q. congruence.
  - pose proof EM as (_ & _ & _ & NC & _ & _ & _ & X). exists m0. split; [|split; [|reflexivity]].
    + rewrite NC. apply no_cell; intros i B; lia.
    + unfold replaced. rewrite emptied_map_cells by exact EM. unfold shows in *. cbn [r_is2d r_data2d r_data set_nodata]. exact S.
Qed.
Print Assumptions C149_replace.

(** The operands added by all threads together are those of the iterations in order, in some
    order; what the sums of parts make of them is C15. *)
Theorem C149_reduction : forall (T D R : Type) n (body : Z -> prog T D R) m0 m1 added, parallel_for n body m0 m1 added ->
  forall chunks tr m ps, Permutation (concat chunks) (zseq n) -> exec m0 (start body chunks) tr m ps -> finished ps ->
  Permutation (concat (map snd ps)) (concat (map added (zseq n))).
Proof.
  intros T D R n body m0 m1 added H chunks tr m ps P X F. destruct (H chunks tr m ps P X) as (_ & _ & E & _). destruct (E F) as (_ & ->). clear - P.
  assert (Q : concat (map (fun c => concat (map added c)) chunks) = concat (map added (concat chunks))).
  { clear. induction chunks as [|c l IH]; [reflexivity|]. cbn [map concat]. rewrite IH, map_app, concat_app. reflexivity. }
  rewrite Q. clear Q. induction P; cbn [map concat]; [constructor|apply Permutation_app_head; assumption| |etransitivity; eassumption].
  rewrite !app_assoc. apply Permutation_app_tail, Permutation_app_comm.
Qed.
Print Assumptions C149_reduction.

(** The threads of a loop with a reduction are a team of C15 and C16: combining their copies
    gives what that team gives. *)
Theorem C149_teams : forall (T D R : Type) n (body : Z -> prog T D R) m0 m1 added (term : nat -> outcome (option R)), parallel_for n body m0 m1 added ->
  (forall i, 0 <= i < n -> exists v, term (Z.to_nat i) = Ok v /\ added i = match v with Some x => [x] | None => [] end) ->
  forall chunks tr m ps, Permutation (concat chunks) (zseq n) -> exec m0 (start body chunks) tr m ps -> finished ps ->
  forall s, Permutation (leaves s) (seq 0 (length ps)) ->
  exists t, covers t (Z.to_nat n) /\ forall add zero, combined add zero s ps = partial add zero term t.
Proof. intros T D R n body m0 m1 added term. exact (teams n body m0 m1 added term). Qed.
Print Assumptions C149_teams.
(** So the sum of an array is that of C15, whichever accesses come first. *)
Theorem C149_sum_team : forall (T D : Type) (add : T -> T -> outcome T) (zero : T) (data : list T) (m0 : mem T D) chunks tr m ps,
  holds1 m0 A_data (Z.of_nat (length data)) (fun i => WT (nth (Z.to_nat i) data zero)) ->
  Permutation (concat chunks) (zseq (Z.of_nat (length data))) -> exec m0 (start (sum1 (fun x => x)) chunks) tr m ps -> finished ps ->
  forall s, Permutation (leaves s) (seq 0 (length ps)) ->
  exists t, covers t (length data) /\ obind (combined add zero s ps) (fun x => add zero x) = Sum add zero data t.
Proof.
  intros T D add zero data m0 chunks tr m ps H P X F s PS.
  destruct (teams (Z.of_nat (length data)) (sum1 (fun x => x)) m0 m0 (fun i => [nth (Z.to_nat i) data zero]) (fun i => obind (aget data (Z.of_nat i)) (fun v => Ok (Some v)))
    (sum_par (fun x => x) _ m0 (fun i => nth (Z.to_nat i) data zero) H)) with (chunks := chunks) (tr := tr) (m := m) (ps := ps) (s := s) as (t & C & E); try assumption.
  - intros i B. exists (Some (nth (Z.to_nat i) data zero)). split; [|reflexivity]. rewrite (aget_ok _ _ (nth (Z.to_nat i) data zero)); [reflexivity|lia|]. rewrite Nat2Z.id. apply nth_error_nth'. lia.
  - exists t. rewrite Nat2Z.id in C. split; [exact C|]. unfold Sum, reduce. rewrite E. reflexivity.
Qed.
Print Assumptions C149_sum_team.

(** A loop with a race: adding to one element without a reduction. *)
Definition racy (i : Z) : prog Z Z Z := rdT (A_data, i, 0) (fun x => rdT (A_stats, 0, 0) (fun s => Wr (A_stats, 0, 0) (WT (s + x)) Done)).
Definition two_cells : mem Z Z := updated (fun _ => None) (or_else (new1 A_data 2 (fun i => WT (i + 5))) (new1 A_stats 1 (fun _ => WT 0))).
Example C149_race_ex : exists tr m ps, exec two_cells (start racy [[0]; [1]]) tr m ps /\ finished ps /\ race tr /\ m (A_stats, 0, 0) = Some (WT 6).
Proof.
  eexists. eexists. eexists. split; [|split; [|split]].
  - eapply exec_next; [eapply exec_next; [eapply exec_next; [eapply exec_next; [eapply exec_next; [eapply exec_next; [apply exec_start|]|]|]|]|]|].
    + eapply (step_rd _ _ _ _ _ 0%nat _ _ _ (WT 5)); [reflexivity|reflexivity].
    + eapply (step_rd _ _ _ _ _ 0%nat _ _ _ (WT 0)); [reflexivity|reflexivity].
    + eapply (step_rd _ _ _ _ _ 1%nat _ _ _ (WT 6)); [reflexivity|reflexivity].
    + eapply (step_rd _ _ _ _ _ 1%nat _ _ _ (WT 0)); [reflexivity|reflexivity].
    + eapply (step_wr _ _ _ _ _ 0%nat _ _ _ _ (WT 0)); [reflexivity|reflexivity].
    + eapply (step_wr _ _ _ _ _ 1%nat _ _ _ _ (WT 5)); [reflexivity|reflexivity].
  - intros th [<-|[<-|[]]]; reflexivity.
  - exists 0%nat, 1%nat, true, true, (A_stats, 0, 0). cbn. intuition congruence.
  - reflexivity.
Qed.
Example C149_ex : there1 two_cells A_data 2 /\ holds1 two_cells A_data 2 (fun i => WT (i + 5)) /\
  updated two_cells (new1 A_data 2 (fun _ => WT 9)) (A_data, 1, 0) = Some (WT 9) /\ two_cells (A_stats, 0, 0) = Some (WT 0).
Proof.
  split; [|split; [|split; reflexivity]].
  - intros i B. assert (i = 0 \/ i = 1) as [-> | ->] by lia; discriminate.
  - intros i B. assert (i = 0 \/ i = 1) as [-> | ->] by lia; reflexivity.
Qed.
