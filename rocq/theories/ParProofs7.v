From Coq Require Import ZArith List Bool Lia Permutation ZifyBool.
From Verif Require Import Base RasterModel RasterSpec ListLib NumModel CellModel GridfsModel ParModel ParSpec ParProofs ParProofs2.
Import ListNotations.
Open Scope Z_scope.

Lemma ofold_snoc {A B} (body : list B -> A -> outcome (list B)) (P : A -> B -> Prop) : (forall acc a y, body acc a = Ok y -> exists x, P a x /\ y = acc ++ [x]) ->
  forall l acc r, ofold body l acc = Ok r -> exists xs, r = acc ++ xs /\ Forall2 P l xs.
Proof.
  intros H. induction l as [|a l IH]; cbn [ofold]; intros acc r E.
  - injection E as <-. exists []. rewrite app_nil_r. auto.
  - destruct (body acc a) as [y| |] eqn:Q; cbn [obind] in E; try discriminate. destruct (H _ _ _ Q) as (x & X & ->).
    destruct (IH _ _ E) as (xs & -> & F). exists (x :: xs). rewrite <- app_assoc. auto.
Qed.

Lemma zseq_F2 {B} (P : Z -> B -> Prop) n xs : 0 <= n -> Forall2 P (zseq n) xs -> Z.of_nat (length xs) = n /\ forall i, 0 <= i < n -> exists x, aget xs i = Ok x /\ P i x.
Proof.
  intros N F. assert (G : forall k a xs, Forall2 P (map (fun i => a + Z.of_nat i) (seq 0 k)) xs -> length xs = k /\ forall i, (i < k)%nat -> exists x, nth_error xs i = Some x /\ P (a + Z.of_nat i) x).
  { clear. induction k as [|k IH]; cbn [seq map]; intros a xs F; inversion F; subst; [split; [reflexivity|intros; lia]|].
    rewrite <- seq_shift, map_map in H3. destruct (IH (a + 1) l') as [L Q].
    - erewrite map_ext in H3; [exact H3|]. intros i. lia.
    - split; [cbn; lia|]. intros [|i] I; [exists y; split; [reflexivity|exact H1]|]. destruct (Q i ltac:(lia)) as (x & X & PX). exists x. split; [exact X|]. replace (a + Z.of_nat (S i)) with (a + 1 + Z.of_nat i) by lia. exact PX. }
  destruct (G (Z.to_nat n) 0 xs) as [L Q].
  - unfold zseq in F. exact F.
  - split; [lia|]. intros i I. destruct (Q (Z.to_nat i) ltac:(lia)) as (x & X & PX). exists x. split; [apply aget_ok; [lia|exact X]|]. replace i with (0 + Z.of_nat (Z.to_nat i)) by lia. exact PX.
Qed.

Lemma gather_inv data lyrs n idx rows : 0 <= n -> 0 <= lyrs -> gather data lyrs n idx = Ok rows -> Z.of_nat (length rows) = n /\
  forall i, 0 <= i < n -> exists t row, match idx with None => t = i | Some ix => aget ix i = Ok t end /\ aget rows i = Ok row /\ Z.of_nat (length row) = lyrs /\
    forall j, 0 <= j < lyrs -> exists x, aget data (t * lyrs + j) = Ok x /\ aget row j = Ok x.
Proof.
  intros N K E. unfold gather in E.
  edestruct (fun H => ofold_snoc _ (fun i row => exists t, match idx with None => t = i | Some ix => aget ix i = Ok t end /\ Forall2 (fun j x => aget data (t * lyrs + j) = Ok x) (zseq lyrs) row) H _ _ _ E) as (xs & -> & F).
  - intros acc i y Q. destruct (match idx with None => Ok i | Some ix => aget ix i end) as [t| |] eqn:T; cbn [obind] in Q; try discriminate.
    match type of Q with obind ?o _ = _ => destruct o as [row| |] eqn:O; cbn [obind] in Q; try discriminate end. injection Q as <-.
    edestruct (fun H => ofold_snoc _ (fun j x => aget data (t * lyrs + j) = Ok x) H _ _ _ O) as (xs & -> & F).
    + intros a j z Q. destruct (aget data (t * lyrs + j)) as [v| |] eqn:V; cbn [obind] in Q; try discriminate. injection Q as <-. eauto.
    + eexists. split; [|reflexivity]. exists t. split; [|exact F]. destruct idx; [exact T|congruence].
  - destruct (zseq_F2 _ _ _ N F) as [L Q]. split; [exact L|]. intros i B. destruct (Q i B) as (row & A & t & T & F2). destruct (zseq_F2 _ _ _ K F2) as [L2 Q2].
    exists t, row. split; [exact T|]. split; [exact A|]. split; [exact L2|]. intros j J. destruct (Q2 j J) as (x & X & Y). eauto.
Qed.

Section L.
Context {D R : Type}.
Implicit Types (m : mem num D).
Lemma db_layers_seq data lyrs n idx rows m0 : 0 <= n -> 0 <= lyrs -> gather data lyrs n idx = Ok rows -> from_store m0 data idx -> there2 m0 A_raster2 n lyrs ->
  exists m1, parallel_for n (@from_db2 num D R (match idx with Some _ => true | None => false end) lyrs) m0 m1 (fun _ => []) /\ shows_table m1 rows.
Proof.
  intros N K E [S1 S2] T2. destruct (gather_inv _ _ _ _ _ N K E) as [L G].
  set (g := fun i => match idx with Some ix => nth (Z.to_nat i) ix 0 | None => i end).
  set (f := fun i j => nth (Z.to_nat j) (nth (Z.to_nat i) rows []) (VI 0)).
  assert (GT : forall i t, match idx with None => t = i | Some ix => aget ix i = Ok t end -> g i = t).
  { intros i t T. unfold g. destruct idx as [ix|]; [|congruence]. apply aget_inv in T. destruct T as [_ T]. apply nth_error_nth, T. }
  assert (RO : forall i row, aget rows i = Ok row -> nth (Z.to_nat i) rows [] = row) by (intros i row A; apply aget_inv in A; destruct A as [_ A]; apply nth_error_nth, A).
  eexists. split; [apply (db2_par _ n lyrs m0 g f)|].
  - intros B i I. destruct (G i I) as (t & row & T & _). rewrite (GT i t T). destruct idx as [ix|]; [|discriminate]. eapply S2; eauto.
  - intros B i I. unfold g. destruct idx; [discriminate|reflexivity].
  - intros i j I J. destruct (G i I) as (t & row & T & A & _ & Q). destruct (Q j J) as (x & X & Y). rewrite (GT i t T). unfold f. rewrite (RO i row A).
    apply aget_inv in Y. destruct Y as [_ Y]. rewrite (nth_error_nth _ _ _ Y). apply S1, X.
  - exact T2.
  - intros i row j x A Y. unfold updated, new2. destruct (loc_dec (A_raster2, 0, 0) (A_raster2, 0, 0)) as [_|X]; [|congruence].
    assert (I : 0 <= i < n). { apply aget_inv in A. destruct A as [P A]. assert (Z.to_nat i < length rows)%nat by (apply nth_error_Some; congruence). lia. }
    destruct (G i I) as (t & row' & _ & A' & LR & _). assert (row' = row) by congruence. subst row'.
    assert (J : 0 <= j < lyrs). { apply aget_inv in Y. destruct Y as [P Y]. assert (Z.to_nat j < length row)%nat by (apply nth_error_Some; congruence). lia. }
    replace (within i n && within j lyrs) with true by (unfold within; lia). unfold f. rewrite (RO i row A). apply aget_inv in Y. destruct Y as [_ Y]. rewrite (nth_error_nth _ _ _ Y). reflexivity.
Qed.

Lemma db_one_seq data n ix rows m0 : 0 <= n -> gather data 1 n (Some ix) = Ok rows -> from_store m0 data (Some ix) -> there1 m0 A_raster n ->
  exists m1, parallel_for n (@from_db1 num D R (fun x => x)) m0 m1 (fun _ => []) /\ forall i x, aget (concat rows) i = Ok x -> m1 (A_raster, i, 0) = Some (WT x).
Proof.
  intros N E [S1 S2] T1. destruct (gather_inv data 1 n (Some ix) rows N ltac:(lia) E) as [L G].
  assert (C : concat rows = map (fun row => nth 0 row (VI 0)) rows).
  { assert (F : forall row, In row rows -> length row = 1%nat).
    { intros row I. apply In_nth_error in I. destruct I as [k I]. assert (k < length rows)%nat by (apply nth_error_Some; congruence).
      destruct (G (Z.of_nat k) ltac:(lia)) as (t & row' & _ & A & LR & _). apply aget_inv in A. destruct A as [_ A]. rewrite Nat2Z.id in A. assert (row' = row) by congruence. subst. lia. }
    clear - F. induction rows as [|row rows IH]; [reflexivity|]. cbn. rewrite IH by (intros; apply F; right; assumption).
    specialize (F row (or_introl eq_refl)). destruct row as [|x [|]]; cbn in F; try lia. reflexivity. }
  set (f := fun i => nth 0 (nth (Z.to_nat i) rows []) (VI 0)).
  assert (Q : forall i, 0 <= i < n -> m0 (A_posidx, i, 0) = Some (WI (nth (Z.to_nat i) ix 0)) /\ m0 (A_db, nth (Z.to_nat i) ix 0, 0) = Some (WT (f i))).
  { intros i I. destruct (G i I) as (t & row & T & A & LR & Q). destruct (Q 0 ltac:(lia)) as (x & X & Y). rewrite Z.mul_1_r, Z.add_0_r in X.
    pose proof (aget_inv _ _ _ T) as [_ T']. rewrite (nth_error_nth _ _ _ T'). split; [eapply S2; eauto|]. rewrite (S1 _ _ X). unfold f.
    apply aget_inv in A. destruct A as [_ A]. rewrite (nth_error_nth _ _ _ A). apply aget_inv in Y. destruct Y as [_ Y]. rewrite (nth_error_nth _ _ _ Y). reflexivity. }
  eexists. split; [apply (db1_par (fun x => x) n m0 (fun i => nth (Z.to_nat i) ix 0) f)|].
  - intros i I. apply Q, I.
  - intros i I. apply Q, I.
  - exact T1.
  - intros i x A. rewrite C in A. apply aget_inv in A. destruct A as [P A]. rewrite nth_error_map in A. destruct (nth_error rows (Z.to_nat i)) as [row|] eqn:RW; [|discriminate]. injection A as <-.
    assert (Z.to_nat i < length rows)%nat by (apply nth_error_Some; congruence). unfold updated, new1, newc. destruct (loc_dec (A_raster, 0, 0) (A_raster, 0, 0)) as [_|X]; [|congruence].
    replace (within i n) with true by (unfold within; lia). unfold f. rewrite (nth_error_nth _ _ _ RW). reflexivity.
Qed.
End L.
