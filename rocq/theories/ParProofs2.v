From Coq Require Import ZArith List Bool Lia Permutation ZifyBool.
From Verif Require Import Base RasterModel ListLib ParModel ParSpec ParProofs.
Import ListNotations.
Open Scope Z_scope.

Definition arrb (a b : arr) : bool := if loc_dec (a, 0, 0) (b, 0, 0) then true else false.
Lemma arrb_eq a b : arrb a b = true <-> a = b.
Proof. unfold arrb. destruct (loc_dec (a, 0, 0) (b, 0, 0)) as [E|E]; split; congruence. Qed.
(** The elements [i], [j] of [a] with [P i j]. *)
Definition here (a : arr) (P : Z -> Z -> bool) (x : loc) : bool := let '(b, i, j) := x in arrb a b && P i j.
Lemma here_at a P b i j : here a P (b, i, j) = true <-> a = b /\ P i j = true.
Proof. unfold here. rewrite andb_true_iff, arrb_eq. tauto. Qed.

Section L.
Context {T D R : Type}.
Implicit Types (m : mem T D).

Lemma newc_at m a n c f i : 0 <= i < n -> updated m (newc a n c f) (a, i, c) = Some (f i).
Proof. intros B. unfold updated, newc. destruct (loc_dec (a, 0, c) (a, 0, c)); [|congruence]. unfold within. replace ((0 <=? i) && (i <? n)) with true by lia. reflexivity. Qed.
Lemma new2_at m a n k f i j : 0 <= i < n -> 0 <= j < k -> updated m (new2 a n k f) (a, i, j) = Some (f i j).
Proof. intros B C. unfold updated, new2. destruct (loc_dec (a, 0, 0) (a, 0, 0)); [|congruence]. unfold within. replace ((0 <=? i) && (i <? n) && ((0 <=? j) && (j <? k))) with true by lia. reflexivity. Qed.
Lemma newc_none a n c (f : Z -> word T D) x : (forall i, 0 <= i < n -> x <> (a, i, c)) -> newc a n c f x = None.
Proof.
  intros H. destruct x as [[b i] j]. unfold newc. destruct (loc_dec (a, 0, c) (b, 0, j)) as [E|E]; [|reflexivity]. injection E as -> <-.
  destruct (within i n) eqn:W; [|reflexivity]. unfold within in W. exfalso. apply (H i); [lia|reflexivity].
Qed.
Lemma new2_none a n k (f : Z -> Z -> word T D) x : (forall i j, 0 <= i < n -> 0 <= j < k -> x <> (a, i, j)) -> new2 a n k f x = None.
Proof.
  intros H. destruct x as [[b i] j]. unfold new2. destruct (loc_dec (a, 0, 0) (b, 0, 0)) as [E|E]; [|reflexivity]. injection E as ->.
  destruct (within i n && within j k) eqn:W; [|reflexivity]. unfold within in W. exfalso. apply (H i j); [lia|lia|reflexivity].
Qed.
Lemma updated_none m f x : f x = None -> updated m f x = m x.
Proof. unfold updated. intros ->. reflexivity. Qed.

(** One written element per iteration, which no iteration reads. *)
Lemma one_cellc n (body : Z -> prog T D R) m0 a k (v : Z -> word T D) added (rd : loc -> bool) :
  (forall x, rd x = true -> forall i, 0 <= i < n -> x <> (a, i, k)) ->
  (forall i, 0 <= i < n -> fits rd (here a (fun r c => (r =? i) && (c =? k))) (body i)) ->
  (forall i, 0 <= i < n -> exists mi, run (body i) m0 = Some (mi, added i) /\ mi (a, i, k) = Some (v i)) ->
  parallel_for n body m0 (updated m0 (newc a n k v)) added.
Proof.
  intros RD F X. apply (par_safe n body m0 _ added (fun _ => rd) (fun i => here a (fun r c => (r =? i) && (c =? k)))); [exact F| | |].
  - intros i j [[b r] c] Bi Bj NE W. apply here_at in W. destruct W as [<- W]. apply orb_false_iff. split.
    + destruct (rd (a, r, c)) eqn:E; [|reflexivity]. exfalso. apply (RD _ E i Bi). f_equal; [f_equal; lia|lia].
    + apply not_true_iff_false. intros Q. apply here_at in Q. lia.
  - intros i B. destruct (X i B) as (mi & E & V). exists mi. split; [exact E|]. intros [[b r] c] W. apply here_at in W. destruct W as [<- W]. replace r with i by lia. replace c with k by lia. rewrite V. symmetry. apply newc_at, B.
  - intros x H. apply updated_none, newc_none. intros i B ->. specialize (H i B). rewrite <- not_true_iff_false, here_at in H. apply H. split; [reflexivity|lia].
Qed.
Lemma one_cell n (body : Z -> prog T D R) m0 a (v : Z -> word T D) added (rd : loc -> bool) :
  (forall x, rd x = true -> forall i, 0 <= i < n -> x <> (a, i, 0)) ->
  (forall i, 0 <= i < n -> fits rd (here a (fun r c => (r =? i) && (c =? 0))) (body i)) ->
  (forall i, 0 <= i < n -> exists mi, run (body i) m0 = Some (mi, added i) /\ mi (a, i, 0) = Some (v i)) ->
  parallel_for n body m0 (updated m0 (new1 a n v)) added.
Proof. apply one_cellc. Qed.
(** Rows of written elements. *)
Lemma one_row n k (cell : Z -> Z -> prog T D R) m0 a (v : Z -> Z -> word T D) (rd : loc -> bool) :
  (forall x, rd x = true -> forall i j, 0 <= i < n -> 0 <= j < k -> x <> (a, i, j)) ->
  (forall i j, 0 <= i < n -> 0 <= j < k -> fits rd (here a (fun r c => (r =? i) && (c =? j))) (cell i j)) ->
  (forall i j, 0 <= i < n -> 0 <= j < k -> exists mi, run (cell i j) m0 = Some (mi, []) /\ mi (a, i, j) = Some (v i j)) ->
  forall i, 0 <= i < n -> fits rd (here a (fun r c => (r =? i) && within c k)) (forl (zseq k) (cell i)) /\
  exists mi, run (forl (zseq k) (cell i)) m0 = Some (mi, []) /\ forall j, 0 <= j < k -> mi (a, i, j) = Some (v i j).
Proof.
  intros RD F X i B. split.
  - apply fits_forl. intros j J. apply zseq_In in J. eapply fits_mono; [| |apply (F i j B J)]; [auto|]. intros [[b r] c] W. apply here_at in W. apply here_at. destruct W as [-> W]. split; [reflexivity|]. unfold within. lia.
  - destruct (chunk_run (cell i) m0 (updated m0 (new2 a n k v)) (fun _ => []) (fun _ => rd) (fun j => here a (fun r c => (r =? i) && (c =? j))) (fun j => 0 <= j < k)) with (c := zseq k) (m := m0) as (mi & E & W).
    + intros j J. apply F; assumption.
    + intros j j' [[b r] c] Bj Bj' NE W. apply here_at in W. destruct W as [<- W]. apply orb_false_iff. split.
      * destruct (rd (a, r, c)) eqn:E; [|reflexivity]. exfalso. apply (RD _ E i j B Bj). f_equal; [f_equal; lia|lia].
      * apply not_true_iff_false. intros Q. apply here_at in Q. lia.
    + intros j J. destruct (X i j B J) as (mi & E & V). exists mi. split; [exact E|]. intros [[b r] c] W. apply here_at in W. destruct W as [<- W]. replace r with i by lia. replace c with j by lia. rewrite V. symmetry. apply new2_at; assumption.
    + apply Forall_forall. intros j J. apply zseq_In, J.
    + apply zseq_nodup.
    + intros l _. reflexivity.
    + exists mi. split.
      * rewrite E. f_equal. f_equal. clear; induction (zseq k) as [|z l IH]; [reflexivity|exact IH].
      * intros j J. rewrite (W (a, i, j)); [apply new2_at; assumption|]. apply any_in. exists j. split; [apply zseq_In, J|]. apply here_at. split; [reflexivity|lia].
Qed.
Lemma one_row_par n k (body : Z -> prog T D R) m0 a (v : Z -> Z -> word T D) (rd : loc -> bool) :
  (forall x, rd x = true -> forall i j, 0 <= i < n -> 0 <= j < k -> x <> (a, i, j)) ->
  (forall i, 0 <= i < n -> fits rd (here a (fun r c => (r =? i) && within c k)) (body i) /\
     exists mi, run (body i) m0 = Some (mi, []) /\ forall j, 0 <= j < k -> mi (a, i, j) = Some (v i j)) ->
  parallel_for n body m0 (updated m0 (new2 a n k v)) (fun _ => []).
Proof.
  intros RD H. apply (par_safe n body m0 _ (fun _ => []) (fun _ => rd) (fun i => here a (fun r c => (r =? i) && within c k))).
  - intros i B. apply H, B.
  - intros i j [[b r] c] Bi Bj NE W. apply here_at in W. destruct W as [<- W]. unfold within in W. apply orb_false_iff. split.
    + destruct (rd (a, r, c)) eqn:E; [|reflexivity]. exfalso. apply (RD _ E i c Bi ltac:(lia)). f_equal. f_equal. lia.
    + apply not_true_iff_false. intros Q. apply here_at in Q. lia.
  - intros i B. destruct (H i B) as (_ & mi & E & V). exists mi. split; [exact E|]. intros [[b r] c] W. apply here_at in W. destruct W as [<- W]. unfold within in W. replace r with i by lia. rewrite (V c) by lia. symmetry. apply new2_at; lia.
  - intros x N. apply updated_none, new2_none. intros i j B C ->. specialize (N i B). rewrite <- not_true_iff_false, here_at in N. apply N. split; [reflexivity|]. unfold within. lia.
Qed.
(** Nothing is written. *)
Lemma no_cell n (body : Z -> prog T D R) m0 added :
  (forall i, 0 <= i < n -> fits (fun _ => true) (fun _ => false) (body i)) ->
  (forall i, 0 <= i < n -> exists mi, run (body i) m0 = Some (mi, added i)) ->
  parallel_for n body m0 m0 added.
Proof.
  intros F X. apply (par_safe n body m0 m0 added (fun _ _ => true) (fun _ _ => false)); [exact F| | |].
  - discriminate.
  - intros i B. destruct (X i B) as (mi & E). exists mi. split; [exact E|discriminate].
  - reflexivity.
Qed.

Definition notin (a : arr) (x : loc) : bool := negb (arrb a (fst (fst x))).
Lemma notin_ne a x i j : notin a x = true -> x <> (a, i, j).
Proof. unfold notin. intros H ->. cbn [fst] in H. replace (arrb a a) with true in H; [discriminate|]. symmetry. apply arrb_eq. reflexivity. Qed.

Lemma init_par (init : T) n m0 : there1 m0 A_data n -> parallel_for n (@init1 T D R init) m0 (updated m0 (new1 A_data n (fun _ => WT init))) (fun _ => []).
Proof.
  intros H. apply (one_cell n _ m0 A_data _ _ (fun _ => false)); [discriminate| |].
  - intros i B. cbn [init1 fits]. split; [apply here_at; split; [reflexivity|lia]|exact I].
  - intros i B. cbn [init1 run]. specialize (H i B). destruct (m0 (A_data, i, 0)); [|congruence]. eexists. split; [reflexivity|apply set_same].
Qed.
Lemma copy_par (cast : D -> T) n m0 f : there1 m0 A_data n -> holds1 m0 A_init n (fun i => WD (f i)) ->
  parallel_for n (@copy1 T D R cast) m0 (updated m0 (new1 A_data n (fun i => WT (cast (f i))))) (fun _ => []).
Proof.
  intros H G. apply (one_cell n _ m0 A_data _ _ (notin A_data)); [intros x X i B; apply notin_ne, X| |].
  - intros i B. cbn [copy1 rdD fits]. split; [reflexivity|]. intros [?|?|?]; cbn [fits]; auto. split; [apply here_at; split; [reflexivity|lia]|exact I].
  - intros i B. unfold copy1, rdD. cbn [run]. rewrite (G i B). cbn [run]. specialize (H i B). destruct (m0 (A_data, i, 0)); [|congruence]. eexists. split; [reflexivity|apply set_same].
Qed.
Lemma copy2_par (cast : D -> T) n k m0 f : there2 m0 A_data n k -> holds2 m0 A_init n k (fun i j => WD (f i j)) ->
  parallel_for n (@copy2 T D R cast k) m0 (updated m0 (new2 A_data n k (fun i j => WT (cast (f i j))))) (fun _ => []).
Proof.
  intros H G. apply (one_row_par n k _ m0 A_data _ (notin A_data)); [intros x X i j _ _; apply notin_ne, X|].
  intros i B. unfold copy2. apply (one_row n k (fun i j => rdD (A_init, i, j) (fun x => Wr (A_data, i, j) (WT (cast x)) Done)) m0 A_data (fun i j => WT (cast (f i j))) (notin A_data)); [intros x X a b _ _; apply notin_ne, X| | |exact B]; clear i B.
  - intros i j B C. cbn [rdD fits]. split; [reflexivity|]. intros [?|?|?]; cbn [fits]; auto. split; [apply here_at; split; [reflexivity|lia]|exact I].
  - intros i j B C. unfold rdD. cbn [run]. rewrite (G i j B C). cbn [run]. specialize (H i j B C). destruct (m0 (A_data, i, j)); [|congruence]. eexists. split; [reflexivity|apply set_same].
Qed.
Lemma sum_par (num : T -> R) n m0 f : holds1 m0 A_data n (fun i => WT (f i)) -> parallel_for n (@sum1 T D R num) m0 m0 (fun i => [num (f i)]).
Proof.
  intros H. apply no_cell; intros i B; unfold sum1, rdT; cbn [fits run].
  - split; [reflexivity|]. intros [?|?|?]; cbn [fits]; auto.
  - rewrite (H i B). cbn [run]. eauto.
Qed.
Lemma sum_idx_par (num : T -> R) n m0 g f : holds1 m0 A_idx n (fun i => WI (g i)) -> (forall i, 0 <= i < n -> m0 (A_data, g i, 0) = Some (WT (f i))) ->
  parallel_for n (@sum_idx T D R num) m0 m0 (fun i => [num (f i)]).
Proof.
  intros H G. apply no_cell; intros i B; unfold sum_idx, rdI, rdT; cbn [fits run].
  - split; [reflexivity|]. intros [?|?|?]; cbn [fits]; auto. split; [reflexivity|]. intros [?|?|?]; cbn [fits]; auto.
  - rewrite (H i B). cbn [run]. rewrite (G i B). cbn [run]. eauto.
Qed.
Lemma std1_par (ex : T -> bool) (dev : T -> T -> R) n m0 f : holds1 m0 A_data n (fun i => WT (f i)) ->
  parallel_for n (@std1 T D R ex dev) m0 m0 (fun i => if ex (f i) then [] else [dev (f i) (f i)]).
Proof.
  intros H. apply no_cell; intros i B; unfold std1, rdT; cbn [fits run].
  - split; [reflexivity|]. intros [?|?|?]; cbn [fits]; auto. destruct (ex x); cbn [fits]; auto. repeat (split; [reflexivity|]; intros [?|?|?]; cbn [fits]; auto).
  - rewrite (H i B). cbn [run]. destruct (ex (f i)); cbn [run]; [eauto|]. rewrite !(H i B). cbn [run]. rewrite (H i B). cbn [run]. eauto.
Qed.
Lemma std2_par (ex : T -> bool) (dev : T -> D -> T -> D -> R) j n m0 f mean : (forall i, 0 <= i < n -> m0 (A_data, i, j) = Some (WT (f i))) -> m0 (A_stats, 1, j) = Some (WD mean) ->
  parallel_for n (@std2 T D R ex dev j) m0 m0 (fun i => if ex (f i) then [] else [dev (f i) mean (f i) mean]).
Proof.
  intros H G. apply no_cell; intros i B; unfold std2, rdT, rdD; cbn [fits run].
  - split; [reflexivity|]. intros [?|?|?]; cbn [fits]; auto. destruct (ex x); cbn [fits]; auto. repeat (split; [reflexivity|]; intros [?|?|?]; cbn [fits]; auto).
  - rewrite (H i B). cbn [run]. destruct (ex (f i)); cbn [run]; [eauto|]. rewrite (H i B). cbn [run]. rewrite G. cbn [run]. rewrite (H i B). cbn [run]. rewrite G. cbn [run]. eauto.
Qed.
Lemma convert_par (is_old : T -> bool) change illegal cast (code : D) (one : R) n m0 f g : there1 m0 A_new n -> holds1 m0 A_data n (fun i => WT (f i)) ->
  (forall i, 0 <= i < n -> (is_old (f i) && change = true /\ g i = code) \/ (is_old (f i) && change = false /\ cast (f i) = Some (g i))) ->
  parallel_for n (convert is_old change illegal cast code one) m0 (updated m0 (new1 A_new n (fun i => WD (g i)))) (fun i => if is_old (f i) && change then [] else if illegal (f i) then [one] else []).
Proof.
  intros H G C. apply (one_cell n _ m0 A_new _ _ (notin A_new)); [intros x X i B; apply notin_ne, X| |].
  - intros i B. assert (W : here A_new (fun r c => (r =? i) && (c =? 0)) (A_new, i, 0) = true) by (apply here_at; split; [reflexivity|lia]).
    unfold convert, rdT. cbn [fits]. split; [reflexivity|]. intros [?|v|?]; cbn [fits]; auto. destruct (is_old v && change); cbn [fits]; auto.
    split; [reflexivity|]. intros [?|x|?]; cbn [fits]; auto. apply fits_seq; [destruct (illegal x); exact I|]. cbn [fits]. split; [reflexivity|]. intros [?|y|?]; cbn [fits]; auto. destruct (cast y); cbn [fits]; auto.
  - intros i B. unfold convert, rdT. cbn [run]. rewrite (G i B). cbn [run]. specialize (H i B). destruct (C i B) as [[-> ->]|[-> E]]; cbn [run].
    + destruct (m0 (A_new, i, 0)); [|congruence]. eexists. split; [reflexivity|apply set_same].
    + rewrite (G i B), run_seq. destruct (illegal (f i)); cbn [run]; rewrite (G i B), E; cbn [run]; (destruct (m0 (A_new, i, 0)); [|congruence]); eexists; (split; [reflexivity|apply set_same]).
Qed.
Lemma first_par n m0 f : holds1 m0 A_raster n (fun i => WT (f i)) -> there1 m0 A_raster2 n ->
  parallel_for n (@first_layer T D R) m0 (updated m0 (new1 A_raster2 n (fun i => WT (f i)))) (fun _ => []).
Proof.
  intros G H. apply (one_cell n _ m0 A_raster2 _ _ (notin A_raster2)); [intros x X i B; apply notin_ne, X| |].
  - intros i B. cbn [first_layer rdT fits]. split; [reflexivity|]. intros [?|?|?]; cbn [fits]; auto. split; [apply here_at; split; [reflexivity|lia]|exact I].
  - intros i B. unfold first_layer, rdT. cbn [run]. rewrite (G i B). cbn [run]. specialize (H i B). destruct (m0 (A_raster2, i, 0)); [|congruence]. eexists. split; [reflexivity|apply set_same].
Qed.
Lemma db1_par (cast : T -> T) n m0 g f : holds1 m0 A_posidx n (fun i => WI (g i)) -> (forall i, 0 <= i < n -> m0 (A_db, g i, 0) = Some (WT (f i))) -> there1 m0 A_raster n ->
  parallel_for n (@from_db1 T D R cast) m0 (updated m0 (new1 A_raster n (fun i => WT (cast (f i))))) (fun _ => []).
Proof.
  intros G F H. apply (one_cell n _ m0 A_raster _ _ (notin A_raster)); [intros x X i B; apply notin_ne, X| |].
  - intros i B. cbn [from_db1 rdI rdT fits]. split; [reflexivity|]. intros [?|?|?]; cbn [fits]; auto. split; [reflexivity|]. intros [?|?|?]; cbn [fits]; auto. split; [apply here_at; split; [reflexivity|lia]|exact I].
  - intros i B. unfold from_db1, rdI, rdT. cbn [run]. rewrite (G i B). cbn [run]. rewrite (F i B). cbn [run]. specialize (H i B). destruct (m0 (A_raster, i, 0)); [|congruence]. eexists. split; [reflexivity|apply set_same].
Qed.
Lemma db2_par (by_pos : bool) n k m0 (g : Z -> Z) f : (by_pos = true -> holds1 m0 A_posidx n (fun i => WI (g i))) -> (by_pos = false -> forall i, 0 <= i < n -> g i = i) ->
  (forall i j, 0 <= i < n -> 0 <= j < k -> m0 (A_db, g i * k + j, 0) = Some (WT (f i j))) -> there2 m0 A_raster2 n k ->
  parallel_for n (@from_db2 T D R by_pos k) m0 (updated m0 (new2 A_raster2 n k (fun i j => WT (f i j)))) (fun _ => []).
Proof.
  intros G G' F H. apply (one_row_par n k _ m0 A_raster2 _ (notin A_raster2)); [intros x X i j _ _; apply notin_ne, X|].
  set (cell := fun s i j => rdT (A_db, s * k + j, 0) (fun x => Wr (A_raster2, i, j) (WT x) Done) : prog T D R).
  assert (FIT : forall s i j, 0 <= i < n -> 0 <= j < k -> fits (notin A_raster2) (here A_raster2 (fun r c => (r =? i) && (c =? j))) (cell s i j)).
  { intros s i j B C. cbn [cell rdT fits]. split; [reflexivity|]. intros [?|?|?]; cbn [fits]; auto. split; [apply here_at; split; [reflexivity|lia]|exact I]. }
  assert (Q : forall i, 0 <= i < n -> fits (notin A_raster2) (here A_raster2 (fun r c => (r =? i) && within c k)) (forl (zseq k) (cell (g i) i)) /\
     exists mi, run (forl (zseq k) (cell (g i) i)) m0 = Some (mi, []) /\ forall j, 0 <= j < k -> mi (A_raster2, i, j) = Some (WT (f i j))).
  { intros i B. apply (one_row n k (fun i => cell (g i) i) m0 A_raster2 (fun i j => WT (f i j)) (notin A_raster2)); [intros x X a b _ _; apply notin_ne, X| | |exact B]; clear i B.
    - intros i j B C. apply FIT; assumption.
    - intros i j B C. unfold cell, rdT. cbn [run]. rewrite (F i j B C). cbn [run]. specialize (H i j B C). destruct (m0 (A_raster2, i, j)); [|congruence]. eexists. split; [reflexivity|apply set_same]. }
  intros i B. destruct (Q i B) as (Q1 & mi & Q2 & Q3). unfold from_db2. destruct by_pos.
  - split.
    + cbn [rdI fits]. split; [reflexivity|]. intros [z|?|?]; try exact I. change (fits (notin A_raster2) (here A_raster2 (fun r c => (r =? i) && within c k)) (forl (zseq k) (cell z i))).
      apply fits_forl. intros j J. apply zseq_In in J. eapply fits_mono; [| |apply (FIT z i j B J)]; [auto|]. intros [[b r] c] W. apply here_at in W. apply here_at. destruct W as [-> W]. split; [reflexivity|]. unfold within. lia.
    + exists mi. split; [|exact Q3]. unfold rdI. cbn [run]. rewrite (G eq_refl i B). exact Q2.
  - rewrite (G' eq_refl i B) in Q1, Q2. split; [exact Q1|]. exists mi. split; [exact Q2|exact Q3].
Qed.
Lemma replace2_par (is_nd : T -> bool) v n k m0 f : holds2 m0 A_raster2 n k (fun i j => WT (f i j)) ->
  parallel_for n (@replace T D R true is_nd v k) m0 (updated m0 (new2 A_raster2 n k (fun i j => WT (if is_nd (f i j) then v else f i j)))) (fun _ => []).
Proof.
  intros H. apply (one_row_par n k _ m0 A_raster2 _ (fun _ => false)); [discriminate|].
  intros i B. unfold replace. cbn zeta.
  apply (one_row n k (fun i lyr => rdT (A_raster2, i, lyr) (fun x => if is_nd x then Wr (A_raster2, i, lyr) (WT v) Done else Done)) m0 A_raster2 (fun i j => WT (if is_nd (f i j) then v else f i j)) (fun _ => false)); [discriminate| | |exact B]; clear i B.
  - intros i j B C. assert (W : here A_raster2 (fun r c => (r =? i) && (c =? j)) (A_raster2, i, j) = true) by (apply here_at; split; [reflexivity|lia]).
    cbn [rdT fits]. split; [exact W|]. intros [?|x|?]; cbn [fits]; auto. destruct (is_nd x); cbn [fits]; auto.
  - intros i j B C. unfold rdT. cbn [run]. rewrite (H i j B C). destruct (is_nd (f i j)); cbn [run].
    + rewrite (H i j B C). eexists. split; [reflexivity|apply set_same].
    + exists m0. split; [reflexivity|apply H; assumption].
Qed.
Lemma replace1_par (is_nd : T -> bool) v n k m0 f : 0 < k -> holds1 m0 A_raster n (fun i => WT (f i)) ->
  parallel_for n (@replace T D R false is_nd v k) m0 (updated m0 (new1 A_raster n (fun i => WT (if is_nd (f i) then v else f i)))) (fun _ => []).
Proof.
  intros K H. apply (one_cell n _ m0 A_raster _ _ (fun _ => false)); [discriminate| |].
  - intros i B. unfold replace. cbn zeta. apply fits_forl. intros j J. assert (W : here A_raster (fun r c => (r =? i) && (c =? 0)) (A_raster, i, 0) = true) by (apply here_at; split; [reflexivity|lia]).
    cbn [rdT fits]. split; [exact W|]. intros [?|x|?]; cbn [fits]; auto. destruct (is_nd x); cbn [fits]; auto.
  - intros i B. unfold replace. cbn zeta.
    assert (G : forall c m x, m (A_raster, i, 0) = Some (WT x) -> exists mi, run (forl c (fun _ => rdT (A_raster, i, 0) (fun x => if is_nd x then Wr (A_raster, i, 0) (WT v) Done else Done))) m = Some (mi, [] : list R) /\
      mi (A_raster, i, 0) = Some (WT (match c with [] => x | _ => if is_nd x then v else x end))).
    { induction c as [|a c IH]; intros m x E; cbn [forl]; [exists m; auto|]. rewrite run_seq. unfold rdT at 1. cbn [run]. rewrite E. destruct (is_nd x) eqn:N; cbn [run].
      - rewrite E. destruct (IH (set m (A_raster, i, 0) (WT v)) v (set_same _ _ _)) as (mi & Q & V). rewrite Q. exists mi. split; [reflexivity|]. rewrite V. destruct c; [reflexivity|]. destruct (is_nd v); reflexivity.
      - destruct (IH m x E) as (mi & Q & V). rewrite Q. exists mi. split; [reflexivity|]. rewrite V, N. destruct c; reflexivity. }
    destruct (G (zseq k) m0 (f i) (H i B)) as (mi & Q & V). exists mi. split; [exact Q|]. rewrite V. assert (NE : In 0 (zseq k)) by (apply zseq_In; lia). destruct (zseq k); [destruct NE|reflexivity].
Qed.

Lemma other_fits place (is_lnd : T -> bool) nd row col cell lyr (wr : loc -> bool) : wr (A_raster2, cell, lyr) = true -> fits (notin A_raster2) wr (@other_layer T D R place is_lnd nd row col cell lyr).
Proof. intros W. unfold other_layer, rdT. destruct (place row col); cbn [fits]; [|auto]. split; [reflexivity|]. intros [?|?|?]; cbn [fits]; auto. Qed.
Lemma other_run place (is_lnd : T -> bool) nd row col cell lyr m (g : Z -> T) : m (A_raster2, cell, lyr) <> None -> (forall j, place row col = Some j -> m (A_layer, j, 0) = Some (WT (g j))) ->
  exists mi, run (@other_layer T D R place is_lnd nd row col cell lyr) m = Some (mi, []) /\
    mi (A_raster2, cell, lyr) = Some (WT (match place row col with Some j => if is_lnd (g j) then nd else g j | None => nd end)).
Proof.
  intros H G. unfold other_layer, rdT. destruct (place row col) as [j|]; cbn [run].
  - rewrite (G j eq_refl). cbn [run]. destruct (m (A_raster2, cell, lyr)); [|congruence]. eexists. split; [reflexivity|apply set_same].
  - destruct (m (A_raster2, cell, lyr)); [|congruence]. eexists. split; [reflexivity|apply set_same].
Qed.
Lemma layer_pos_par place (is_lnd : T -> bool) nd cols lyr n m0 (p : Z -> Z) (g : Z -> T) :
  (forall i, 0 <= i < n -> m0 (A_raster2, i, lyr) <> None) -> holds1 m0 A_posidx n (fun i => WI (p i)) ->
  (forall i j, 0 <= i < n -> place (Z.quot (p i) cols) (Z.rem (p i) cols) = Some j -> m0 (A_layer, j, 0) = Some (WT (g j))) ->
  parallel_for n (@layer_pos T D R place is_lnd nd cols lyr) m0
    (updated m0 (newc A_raster2 n lyr (fun i => WT (match place (Z.quot (p i) cols) (Z.rem (p i) cols) with Some j => if is_lnd (g j) then nd else g j | None => nd end)))) (fun _ => []).
Proof.
  intros H P G. apply (one_cellc n _ m0 A_raster2 lyr _ _ (notin A_raster2)); [intros x X i B; apply notin_ne, X| |].
  - intros i B. unfold layer_pos, rdI. cbn [fits]. split; [reflexivity|]. intros [?|?|?]; cbn [fits]; auto. split; [reflexivity|]. intros [?|?|?]; cbn [fits]; auto. apply other_fits. apply here_at. split; [reflexivity|lia].
  - intros i B. unfold layer_pos, rdI. cbn [run]. rewrite (P i B). cbn [run]. rewrite (P i B). apply other_run; [apply H, B|intros j E; apply (G i j B E)].
Qed.
Lemma layer_row_par place (is_lnd is_nd : T -> bool) nd rows cols lyr m0 (f g : Z -> T) : 0 < lyr -> 0 <= cols ->
  (forall i, 0 <= i < rows * cols -> m0 (A_raster2, i, lyr) <> None) -> holds1 m0 A_raster2 (rows * cols) (fun i => WT (f i)) ->
  (forall r c j, 0 <= r < rows -> 0 <= c < cols -> is_nd (f (r * cols + c)) = false -> place r c = Some j -> m0 (A_layer, j, 0) = Some (WT (g j))) ->
  parallel_for rows (@layer_row T D R place is_lnd is_nd nd cols lyr) m0
    (updated m0 (newc A_raster2 (rows * cols) lyr (fun i => WT (if is_nd (f i) then nd else match place (i / cols) (i mod cols) with Some j => if is_lnd (g j) then nd else g j | None => nd end)))) (fun _ => []).
Proof.
  intros L PC H F G. set (v := fun i => _).
  set (rd := fun i x => notin A_raster2 x || here A_raster2 (fun r c => within (r - i * cols) cols && (c =? 0)) x).
  set (wr := fun i => here A_raster2 (fun r c => within (r - i * cols) cols && (c =? lyr))).
  set (cell := fun i j => rdT (A_raster2, i * cols + j, 0) (fun v => if is_nd v then Wr (A_raster2, i * cols + j, lyr) (WT nd) Done else other_layer place is_lnd nd i j (i * cols + j) lyr) : prog T D R).
  assert (CF : forall i j, 0 <= i < rows -> 0 <= j < cols -> fits (rd i) (here A_raster2 (fun r c => (r =? i * cols + j) && (c =? lyr))) (cell i j)).
  { intros i j B C. unfold cell, rdT. cbn [fits]. split.
    - apply orb_true_iff. left. unfold rd. apply orb_true_iff. right. apply here_at. split; [reflexivity|]. unfold within. lia.
    - assert (W : here A_raster2 (fun r c => (r =? i * cols + j) && (c =? lyr)) (A_raster2, i * cols + j, lyr) = true) by (apply here_at; split; [reflexivity|lia]).
      intros [?|x|?]; cbn [fits]; auto. destruct (is_nd x); cbn [fits]; auto. eapply fits_mono; [| |apply other_fits, W]; [|auto]. intros l E. unfold rd. rewrite E. reflexivity. }
  assert (RANGE : forall i j, 0 <= i < rows -> 0 <= j < cols -> 0 <= i * cols + j < rows * cols) by (intros; nia).
  assert (CR : forall i j, 0 <= i < rows -> 0 <= j < cols -> exists mi, run (cell i j) m0 = Some (mi, []) /\ mi (A_raster2, i * cols + j, lyr) = Some (v (i * cols + j))).
  { intros i j B C. pose proof (RANGE i j B C) as RG. unfold cell, rdT, v. cbn [run]. rewrite (F _ RG). specialize (H _ RG). destruct (is_nd (f (i * cols + j))) eqn:ND; cbn [run].
    - destruct (m0 (A_raster2, i * cols + j, lyr)); [|congruence]. eexists. split; [reflexivity|apply set_same].
    - replace ((i * cols + j) / cols) with i by (rewrite Z.add_comm, Z.div_add, Z.div_small; lia). replace ((i * cols + j) mod cols) with j by (rewrite Z.add_comm, Z.mod_add, Z.mod_small; lia).
      apply other_run; [exact H|]. intros k E. apply (G i j k B C ND E). }
  assert (ROW : forall i, 0 <= i < rows -> fits (rd i) (wr i) (forl (zseq cols) (cell i)) /\ exists mi, run (forl (zseq cols) (cell i)) m0 = Some (mi, []) /\ forall x, wr i x = true -> mi x = updated m0 (newc A_raster2 (rows * cols) lyr v) x).
  { intros i B. split.
    - apply fits_forl. intros j J. apply zseq_In in J. eapply fits_mono; [| |apply (CF i j B J)]; [auto|]. intros [[b r] c] W. apply here_at in W. destruct W as [<- W]. apply here_at. split; [reflexivity|]. unfold within. lia.
    - destruct (chunk_run (cell i) m0 (updated m0 (newc A_raster2 (rows * cols) lyr v)) (fun _ => []) (fun _ => rd i) (fun j => here A_raster2 (fun r c => (r =? i * cols + j) && (c =? lyr))) (fun j => 0 <= j < cols)) with (c := zseq cols) (m := m0) as (mi & E & W).
      + intros j J. apply CF; assumption.
      + intros j j' [[b r] c] Bj Bj' NE W. apply here_at in W. destruct W as [<- W]. apply orb_false_iff. split.
        * unfold rd. apply orb_false_iff. split; [reflexivity|]. apply not_true_iff_false. intros Q. apply here_at in Q. lia.
        * apply not_true_iff_false. intros Q. apply here_at in Q. lia.
      + intros j J. destruct (CR i j B J) as (mi & E & V). exists mi. split; [exact E|]. intros [[b r] c] W. apply here_at in W. destruct W as [<- W]. replace r with (i * cols + j) by lia. replace c with lyr by lia. rewrite V. symmetry. apply newc_at. apply RANGE; assumption.
      + apply Forall_forall. intros j J. apply zseq_In, J.
      + apply zseq_nodup.
      + intros l _. reflexivity.
      + exists mi. split.
        * rewrite E. f_equal. f_equal. clear. induction (zseq cols) as [|z l IH]; [reflexivity|exact IH].
        * intros [[b r] c] X. apply here_at in X. destruct X as [<- X]. unfold within in X. apply W. apply any_in. exists (r - i * cols). split; [apply zseq_In; lia|]. apply here_at. split; [reflexivity|lia]. }
  apply (par_safe rows _ m0 _ (fun _ => []) rd wr).
  - intros i B. apply ROW, B.
  - intros i j [[b r] c] Bi Bj NE W. apply here_at in W. destruct W as [<- W]. unfold within in W. assert (APART : (r - i * cols <? cols) && (0 <=? r - i * cols) = true -> (r - j * cols <? cols) && (0 <=? r - j * cols) = true -> False) by (clear - NE; intros; nia).
    apply orb_false_iff. split.
    + unfold rd. apply orb_false_iff. split; [reflexivity|]. apply not_true_iff_false. intros Q. apply here_at in Q. lia.
    + apply not_true_iff_false. intros Q. apply here_at in Q. unfold within in Q. apply APART; lia.
  - intros i B. destruct (ROW i B) as (_ & mi & E & V). exists mi. auto.
  - intros x N. apply updated_none, newc_none. intros q B ->. assert (C : 0 < cols) by (clear -B PC; destruct (Z.eq_dec cols 0) as [Z0|Z0]; [rewrite Z0, Z.mul_0_r in B; lia|lia]). assert (0 <= q / cols < rows) by (split; [apply Z.div_pos; lia|apply Z.div_lt_upper_bound; lia]).
    specialize (N (q / cols) H0). rewrite <- not_true_iff_false in N. apply N. apply here_at. split; [reflexivity|]. pose proof (Z.div_mod q cols ltac:(lia)). pose proof (Z.mod_pos_bound q cols C). unfold within. nia.
Qed.
End L.
