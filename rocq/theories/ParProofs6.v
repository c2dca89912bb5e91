From Coq Require Import ZArith List Bool Lia Permutation ZifyBool.
From Flocq Require Import BinarySingleNaN.
From Verif Require Import Base RasterModel RasterSpec StrModel MapModel BasicModel FloatModel TypeModel CellModel GdalModel ListLib ParModel ParSpec ParProofs ParProofs2 ParProofs4 ParProofs5.
Import ListNotations.
Open Scope Z_scope.
Open Scope outcome_scope.

Section Fit.
Variables (s t : rdt) (nd : f64) (z : Z) (changed : bool) (vals : list num).
Notation val i := (nth i vals (VI 0)).
Notation step := (fun (st : list (option num) * Z) (i : nat) =>
    let* vs := deref (Some vals) in
    let* v := aget vs (Z.of_nat i) in
    let* w := fit_cell s t nd z changed v in
    let* a := aset (fst st) (Z.of_nat i) (Some (fst w)) in
    Ok (a, snd st + if snd w then 1 else 0)).
Definition counted (i : nat) : Z := match fit_cell s t nd z changed (val i) with Ok w => if snd w then 1 else 0 | _ => 0 end.
Definition zsum (l : list Z) : Z := fold_right Z.add 0 l.
Lemma zsum_app a b : zsum (a ++ b) = zsum a + zsum b.
Proof. unfold zsum. induction a as [|x a IH]; cbn [app fold_right]; [reflexivity|]. rewrite IH. lia. Qed.
Lemma zsum_perm a b : Permutation a b -> zsum a = zsum b.
Proof. unfold zsum. induction 1; cbn [fold_right]; lia. Qed.
Lemma fit_fold ord : forall a0 c0 a c, ofold step ord (a0, c0) = Ok (a, c) ->
  (forall i, In i ord -> exists w, fit_cell s t nd z changed (val i) = Ok w) /\
  (forall j x, nth_error a j = Some (Some x) -> (exists b, In j ord /\ fit_cell s t nd z changed (val j) = Ok (x, b)) \/ nth_error a0 j = Some (Some x)) /\
  c = c0 + zsum (map counted ord).
Proof.
  induction ord as [|i ord IH]; intros a0 c0 a c E; cbn [ofold map] in *.
  - injection E as <- <-. split; [intros i []|]. split; [auto|]. cbn. lia.
  - cbn [deref obind] in E. destruct (aget vals (Z.of_nat i)) as [v| |] eqn:G; cbn [obind] in E; try discriminate. apply aget_inv in G. destruct G as [_ G]. rewrite Nat2Z.id in G. assert (V : val i = v) by (apply nth_error_nth, G).
    destruct (fit_cell s t nd z changed v) as [w| |] eqn:W; cbn [obind] in E; try discriminate. cbn [fst snd] in E. destruct (aset a0 (Z.of_nat i) (Some (fst w))) as [a1| |] eqn:S; cbn [obind] in E; try discriminate.
    apply aset_inv in S. destruct S as [B ->]. rewrite Nat2Z.id in E. destruct (IH _ _ _ _ E) as (H1 & H2 & H3). split; [|split].
    + intros j [<-|J]; [rewrite V; eauto|apply H1, J].
    + intros j x X. destruct (H2 j x X) as [(b & J & Q)|Q]; [left; exists b; split; [right; exact J|exact Q]|]. rewrite upd_nth in Q. destruct (Nat.eqb_spec j i) as [->|N]; cbn [andb] in Q; [|right; exact Q].
      destruct (i <? length a0)%nat; [|right; exact Q]. left. exists (snd w). split; [left; reflexivity|]. rewrite V, W. injection Q as <-. destruct w; reflexivity.
    + rewrite H3. unfold zsum. cbn [fold_right]. unfold counted at 2. rewrite V, W. lia.
Qed.

Lemma convert_seq lo tlo hi thi ord n a c (m0 : mem num num) : limits t = Some ((lo, tlo), (hi, thi)) -> 0 <= n -> n <= Z.of_nat (length vals) -> schedule n ord ->
  fit_cells s t nd z changed ord n (Some vals) = Ok (a, c) -> there1 m0 A_new n -> holds1 m0 A_data n (fun i => WT (val (Z.to_nat i))) ->
  exists m1 added, parallel_for n (convert (fun v => FloatEqual (as_double v) nd) changed (fun v => less s v lo tlo || greater s v hi thi) (fun v => match cvt t v with Ok w => Some w | _ => None end) (VI z) 1) m0 m1 added /\
    (forall i w, aget a i = Ok (Some w) -> m1 (A_new, i, 0) = Some (WD w)) /\ zsum (concat (map added (zseq n))) = c.
Proof.
  intros L P0 PL S E TH HD. unfold fit_cells in E. destruct (fit_fold ord _ _ _ _ E) as (H1 & H2 & H3). unfold schedule in S.
  assert (IN : forall i, 0 <= i < n -> In (Z.to_nat i) ord) by (intros i B; apply (Permutation_in _ (Permutation_sym S)); apply in_seq; lia).
  set (g := fun i => match fit_cell s t nd z changed (val (Z.to_nat i)) with Ok w => fst w | _ => VI 0 end).
  eexists. eexists. split; [apply (convert_par (fun v => FloatEqual (as_double v) nd) changed (fun v => less s v lo tlo || greater s v hi thi) (fun v => match cvt t v with Ok w => Some w | _ => None end) (VI z) 1 n m0 (fun i => val (Z.to_nat i)) g TH HD)|split].
  - intros i B. destruct (H1 _ (IN i B)) as (w & W). unfold g. rewrite W. unfold fit_cell in W. destruct (FloatEqual (as_double (val (Z.to_nat i))) nd && changed); [left|right]; (split; [reflexivity|]).
    + injection W as <-. reflexivity.
    + rewrite L in W. destruct (cvt t (val (Z.to_nat i))) as [x| |]; cbn [obind] in W; try discriminate. injection W as <-. reflexivity.
  - intros i w Q. apply aget_inv in Q. destruct Q as [Pi Q]. destruct (H2 _ _ Q) as [(b & J & W)|X].
    + assert (B : 0 <= i < n) by (apply (Permutation_in _ S) in J; apply in_seq in J; lia). unfold new1. rewrite newc_at by exact B. unfold g. rewrite W. reflexivity.
    + exfalso. apply nth_error_In, repeat_spec in X. discriminate.
  - rewrite H3. rewrite (zsum_perm _ _ (Permutation_map counted S)). rewrite <- zseq_nats, map_map. cbn [Z.add]. assert (R : forall i, In i (zseq n) -> 0 <= i < n) by (intros i; apply zseq_In). revert R. induction (zseq n) as [|i l IL]; intros R; [reflexivity|]. cbn [map concat]. rewrite zsum_app, IL by (intros j J; apply R; right; exact J).
    unfold zsum at 3. cbn [fold_right]. fold (zsum (map (fun x => counted (Z.to_nat x)) l)). f_equal. destruct (H1 _ (IN i (R i (or_introl eq_refl)))) as (w & W). unfold counted. rewrite W. unfold fit_cell in W. destruct (FloatEqual (as_double (val (Z.to_nat i))) nd && changed).
    + injection W as <-. reflexivity.
    + rewrite L in W. destruct (cvt t (val (Z.to_nat i))) as [x| |]; cbn [obind] in W; try discriminate. injection W as <-. cbn [snd]. destruct (less s (val (Z.to_nat i)) lo tlo || greater s (val (Z.to_nat i)) hi thi); reflexivity.
Qed.
End Fit.
