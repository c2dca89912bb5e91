From Coq Require Import ZArith List Bool Lia Permutation ZifyBool.
From Verif Require Import Base RasterModel ListLib ParModel ParSpec ParProofs ParProofs2.
Import ListNotations.
Open Scope Z_scope.

Section L.
Context {T D R : Type}.
Implicit Types (m : mem T D).

Definition inputs (x : loc) : bool := let '(b, _, _) := x in arrb A_vals b || arrb A_vals2 b || arrb A_prow b || arrb A_pcol b.
Definition outputs (two : bool) (k i : Z) (x : loc) : bool :=
  (if two then here A_raster2 (fun r c => (r =? i) && within c k) x else here A_raster (fun r c => (r =? i) && (c =? 0)) x) ||
  here A_pos (fun r c => (r =? i) && within c 2) x || here A_posidx (fun r c => (r =? i) && (c =? 0)) x.

Lemma in_out two k i x : inputs x = true -> outputs two k i x = false.
Proof.
  destruct x as [[b r] c]. unfold inputs, outputs. intros H. repeat rewrite orb_true_iff in H. rewrite !arrb_eq in H.
  destruct H as [[[H|H]|H]|H]; subst b; destruct two; reflexivity.
Qed.
Lemma out_apart two k i j x : i <> j -> outputs two k i x = true -> outputs two k j x = false.
Proof.
  destruct x as [[b r] c]. intros N H. unfold outputs in *. rewrite !orb_true_iff in H. apply not_true_iff_false. rewrite !orb_true_iff. intros Q.
  destruct two; rewrite !here_at in *; intuition (subst; try discriminate; lia).
Qed.

Lemma compact_par (two : bool) lyrs cols n m0 (f : Z -> T) (f2 : Z -> Z -> T) (pr pc : Z -> Z) : 0 < lyrs ->
  holds1 m0 A_vals n (fun i => WT (f i)) -> (two = true -> holds2 m0 A_vals2 n (lyrs - 1) (fun i j => WT (f2 i j))) ->
  holds1 m0 A_prow n (fun i => WI (pr i)) -> holds1 m0 A_pcol n (fun i => WI (pc i)) ->
  (if two then there2 m0 A_raster2 n lyrs else there1 m0 A_raster n) -> there2 m0 A_pos n 2 -> there1 m0 A_posidx n ->
  parallel_for n (@compact T D R two lyrs cols) m0
    (updated m0 (or_else (if two then new2 A_raster2 n lyrs (fun i j => WT (if j =? 0 then f i else f2 i (j - 1))) else new1 A_raster n (fun i => WT (f i)))
                (or_else (new2 A_pos n 2 (fun i j => WI (if j =? 0 then pr i else pc i))) (new1 A_posidx n (fun i => WI (pr i * cols + pc i)))))) (fun _ => []).
Proof.
  intros K V V2 PR PC OUT OP OI. set (m1 := updated m0 _).
  assert (M1a : two = true -> forall i j, 0 <= i < n -> 0 <= j < lyrs -> m1 (A_raster2, i, j) = Some (WT (if j =? 0 then f i else f2 i (j - 1)))).
  { intros E i j B C. unfold m1, updated, or_else. rewrite E. cbn. unfold within. replace ((0 <=? i) && (i <? n) && ((0 <=? j) && (j <? lyrs))) with true by lia. reflexivity. }
  assert (M1b : two = false -> forall i, 0 <= i < n -> m1 (A_raster, i, 0) = Some (WT (f i))).
  { intros E i B. unfold m1, updated, or_else. rewrite E. cbn. unfold within. replace ((0 <=? i) && (i <? n)) with true by lia. reflexivity. }
  assert (M1c : forall i j, 0 <= i < n -> 0 <= j < 2 -> m1 (A_pos, i, j) = Some (WI (if j =? 0 then pr i else pc i))).
  { intros i j B C. unfold m1, updated, or_else, new1, newc, new2. destruct two; cbn; (destruct j as [|[| |]|]; try lia); cbn; unfold within; replace ((0 <=? i) && (i <? n)) with true by lia; reflexivity. }
  assert (M1d : forall i, 0 <= i < n -> m1 (A_posidx, i, 0) = Some (WI (pr i * cols + pc i))).
  { intros i B. unfold m1, updated, or_else. destruct two; cbn; unfold within; replace ((0 <=? i) && (i <? n)) with true by lia; reflexivity. }
  apply (par_safe n _ m0 m1 (fun _ => []) (fun _ => inputs) (outputs two lyrs)).
  - intros i B. unfold compact. apply fits_seq.
    + destruct two; unfold rdT; cbn [fits].
      * split; [reflexivity|]. intros [?|x|?]; cbn [fits]; auto. split; [unfold outputs; rewrite !orb_true_iff; left; left; apply here_at; split; [reflexivity|unfold within; lia]|].
        apply fits_forl. intros j J. apply in_map_iff in J. destruct J as (a & <- & J). apply zseq_In in J. cbn [fits]. split; [reflexivity|]. intros [?|y|?]; cbn [fits]; auto.
        split; [|exact I]. unfold outputs; rewrite !orb_true_iff; left; left; apply here_at; split; [reflexivity|unfold within; lia].
      * split; [reflexivity|]. intros [?|x|?]; cbn [fits]; auto. split; [|exact I]. unfold outputs; rewrite !orb_true_iff; left; left; apply here_at; split; [reflexivity|lia].
    + assert (O1 : forall c, 0 <= c < 2 -> outputs two lyrs i (A_pos, i, c) = true) by (intros c C; unfold outputs; rewrite !orb_true_iff; left; right; apply here_at; split; [reflexivity|unfold within; lia]).
      assert (O2 : outputs two lyrs i (A_posidx, i, 0) = true) by (unfold outputs; rewrite !orb_true_iff; right; apply here_at; split; [reflexivity|lia]).
      unfold rdI. cbn [fits]. split; [reflexivity|]. intros [r|?|?]; cbn [fits]; auto. split; [apply O1; lia|]. split; [reflexivity|]. intros [c|?|?]; cbn [fits]; auto. split; [apply O1; lia|].
      split; [reflexivity|]. intros [r'|?|?]; cbn [fits]; auto. split; [reflexivity|]. intros [c'|?|?]; cbn [fits]; auto.
  - intros i j x Bi Bj NE W. apply orb_false_iff. split; [|apply (out_apart two lyrs i j x NE W)]. destruct (inputs x) eqn:E; [|reflexivity]. rewrite (in_out two lyrs i x E) in W. discriminate.
  - intros i B.
    assert (FIRST : exists ma, run (if two
        then rdT (A_vals, i, 0) (fun x => Wr (A_raster2, i, 0) (WT x)
               (forl (map (fun j => j + 1) (zseq (lyrs - 1))) (fun lyr => rdT (A_vals2, i, lyr - 1) (fun y => Wr (A_raster2, i, lyr) (WT y) Done))))
        else rdT (A_vals, i, 0) (fun x => Wr (A_raster, i, 0) (WT x) Done)) m0 = Some (ma, [] : list R) /\
      (if two then forall j, 0 <= j < lyrs -> ma (A_raster2, i, j) = m1 (A_raster2, i, j) else ma (A_raster, i, 0) = m1 (A_raster, i, 0)) /\
      (forall b r c, b <> A_raster2 -> b <> A_raster -> ma (b, r, c) = m0 (b, r, c))).
    { destruct two.
      - unfold rdT at 1. cbn [run]. rewrite (V i B). cbn [run]. pose proof (OUT i 0 B ltac:(lia)) as Q0. destruct (m0 (A_raster2, i, 0)) as [w0|] eqn:E0; [|congruence].
        set (ms := set m0 (A_raster2, i, 0) (WT (f i))).
        set (cell := fun lyr => rdT (A_vals2, i, lyr - 1) (fun y => Wr (A_raster2, i, lyr) (WT y) Done) : prog T D R).
        set (wc := fun j => here A_raster2 (fun r c => (r =? i) && (c =? j))).
        destruct (chunk_run cell ms (updated ms (new2 A_raster2 n lyrs (fun i j => WT (if j =? 0 then f i else f2 i (j - 1))))) (fun _ => []) (fun _ => inputs) wc (fun j => 1 <= j < lyrs)) with (c := map (fun j => j + 1) (zseq (lyrs - 1))) (m := ms) as (ma & E & W).
        + intros j J. unfold cell, rdT. cbn [fits]. split; [reflexivity|]. intros [?|y|?]; cbn [fits]; auto. split; [|exact I]. apply here_at. split; [reflexivity|lia].
        + intros j j' [[b r] c] Bj Bj' NE W. apply here_at in W. destruct W as [<- W]. apply orb_false_iff. split; [reflexivity|]. apply not_true_iff_false. intros Q. apply here_at in Q. lia.
        + intros j J. unfold cell, rdT. cbn [run]. assert (E1 : ms (A_vals2, i, j - 1) = Some (WT (f2 i (j - 1)))) by (unfold ms; rewrite set_other by congruence; apply V2; lia).
          rewrite E1. cbn [run]. pose proof (OUT i j B ltac:(lia)) as Qj. assert (E2 : ms (A_raster2, i, j) = m0 (A_raster2, i, j)) by (unfold ms; apply set_other; injection; lia). rewrite E2. destruct (m0 (A_raster2, i, j)); [|congruence].
          eexists. split; [reflexivity|]. intros [[b r] c] X. apply here_at in X. destruct X as [<- X]. replace r with i by lia. replace c with j by lia. rewrite set_same. rewrite new2_at by lia. destruct (Z.eqb_spec j 0); [lia|reflexivity].
        + apply Forall_forall. intros j J. apply in_map_iff in J. destruct J as (a & <- & J). apply zseq_In in J. lia.
        + apply FinFun.Injective_map_NoDup; [intros x y; lia|apply zseq_nodup].
        + intros l _. reflexivity.
        + assert (FITS : fits (any (fun _ => inputs) (map (fun j => j + 1) (zseq (lyrs - 1)))) (any wc (map (fun j => j + 1) (zseq (lyrs - 1)))) (forl (map (fun j => j + 1) (zseq (lyrs - 1))) cell)).
          { apply (chunk_fits cell (fun _ => inputs) wc (fun j => 1 <= j < lyrs)).
            - intros j J. unfold cell, rdT. cbn [fits]. split; [reflexivity|]. intros [?|y|?]; cbn [fits]; auto. split; [|exact I]. apply here_at. split; [reflexivity|lia].
            - apply Forall_forall. intros j J. apply in_map_iff in J. destruct J as (a & <- & J). apply zseq_In in J. lia. }
          exists ma. split; [|split].
          * rewrite E. f_equal. f_equal. clear. generalize (map (fun j => j + 1) (zseq (lyrs - 1))). intros l. induction l as [|z l IH]; [reflexivity|exact IH].
          * intros j J. rewrite (M1a eq_refl i j B J). destruct (Z.eq_dec j 0) as [->|NJ].
            -- rewrite (run_outside _ _ _ _ _ _ FITS E).
               ++ unfold ms. apply set_same.
               ++ apply not_true_iff_false. intros Q. apply any_in in Q. destruct Q as (k & Ik & Q). apply in_map_iff in Ik. destruct Ik as (a & <- & Ia). apply zseq_In in Ia. apply here_at in Q. lia.
            -- rewrite (W (A_raster2, i, j)); [rewrite new2_at by lia; reflexivity|]. apply any_in. exists j. split; [apply in_map_iff; exists (j - 1); split; [lia|apply zseq_In; lia]|]. apply here_at. split; [reflexivity|lia].
          * intros b r c N1 N2. rewrite (run_outside _ _ _ _ _ _ FITS E).
            -- unfold ms. apply set_other. congruence.
            -- apply not_true_iff_false. intros Q. apply any_in in Q. destruct Q as (k & Ik & Q). apply here_at in Q. destruct Q. congruence.
      - unfold rdT at 1. cbn [run]. rewrite (V i B). cbn [run]. pose proof (OUT i B) as Q0. destruct (m0 (A_raster, i, 0)) as [w0|] eqn:E0; [|congruence]. eexists. split; [reflexivity|]. split.
        + rewrite set_same, (M1b eq_refl i B). reflexivity.
        + intros b r c N1 N2. apply set_other. congruence. }
    destruct FIRST as (ma & E & A1 & A2). unfold compact. rewrite run_seq, E.
    assert (Ep : forall j, 0 <= j < 2 -> ma (A_pos, i, j) <> None) by (intros j J; rewrite A2 by discriminate; apply OP; assumption).
    assert (Er : ma (A_prow, i, 0) = Some (WI (pr i))) by (rewrite A2 by discriminate; apply PR, B).
    assert (Ec : ma (A_pcol, i, 0) = Some (WI (pc i))) by (rewrite A2 by discriminate; apply PC, B).
    assert (Ei : ma (A_posidx, i, 0) <> None) by (rewrite A2 by discriminate; apply OI, B).
    pose proof (Ep 0 ltac:(lia)) as Ep0. pose proof (Ep 1 ltac:(lia)) as Ep1. clear Ep.
    unfold rdI. cbn [run]. rewrite Er. cbn [run]. destruct (ma (A_pos, i, 0)) as [w0|] eqn:P0; [|congruence]. cbn [run].
    rewrite set_other, Ec by congruence. cbn [run]. rewrite set_other by congruence. destruct (ma (A_pos, i, 1)) as [w1|] eqn:P1; [|congruence]. cbn [run].
    rewrite !set_other, Er by congruence. cbn [run]. rewrite !set_other, Ec by congruence. cbn [run]. rewrite !set_other by congruence. destruct (ma (A_posidx, i, 0)) as [w2|] eqn:P2; [|congruence]. cbn [run app].
    eexists. split; [reflexivity|]. intros [[b r] c] W. unfold outputs in W. rewrite !orb_true_iff in W.
    destruct W as [[W|W]|W].
    + destruct two; apply here_at in W; destruct W as [<- W]; (replace r with i by lia); rewrite !set_other by congruence; [apply A1; unfold within in W; lia|replace c with 0 by lia; exact A1].
    + apply here_at in W. destruct W as [<- W]. replace r with i by lia. unfold within in W. rewrite (M1c i c B ltac:(lia)). rewrite set_other by congruence. destruct (Z.eqb_spec c 0) as [->|NC].
      * rewrite set_other by congruence. apply set_same.
      * replace c with 1 by lia. apply set_same.
    + apply here_at in W. destruct W as [<- W]. replace r with i by lia. replace c with 0 by lia. rewrite set_same. symmetry. apply M1d, B.
  - intros x N. unfold m1. apply updated_none. unfold or_else.
    assert (E1 : (if two then new2 A_raster2 n lyrs (fun i j => WT (if j =? 0 then f i else f2 i (j - 1))) else new1 A_raster n (fun i => WT (f i))) x = None :> option (word T D)).
    { destruct two; [apply new2_none; intros i j B C ->|apply newc_none; intros i B ->]; specialize (N i B); unfold outputs in N; rewrite !orb_false_iff in N; destruct N as [[N _] _]; rewrite <- not_true_iff_false, here_at in N; apply N; (split; [reflexivity|unfold within; lia]). }
    rewrite E1, new2_none.
    + apply newc_none. intros i B ->. specialize (N i B). unfold outputs in N. rewrite !orb_false_iff in N. destruct N as [_ N]. rewrite <- not_true_iff_false, here_at in N. apply N. split; [reflexivity|lia].
    + intros i j B C ->. specialize (N i B). unfold outputs in N. rewrite !orb_false_iff in N. destruct N as [[_ N] _]. rewrite <- not_true_iff_false, here_at in N. apply N. split; [reflexivity|unfold within; lia].
Qed.
End L.
