From Coq Require Import ZArith List Bool Lia Permutation ZifyBool.
From Verif Require Import Base RasterModel RasterSpec ListLib RasterProofs ParModel ParSpec ParProofs ShareModel ShareSpec ShareProofs ShareProofs2.
Import ListNotations.
Open Scope Z_scope.

Section S.
Context {T D : Type}.
Notation prog := (prog T D (answer T D)).
Implicit Types (r : raster T) (m : mem T D) (p q : prog).

Definition Kin (m0 : mem T D) (l : loc) (w : word T D) : bool := match w, m0 l with WI z, Some (WI z0) => z =? z0 | _, _ => true end.
Definition owner r (own : Z -> Z -> Z) (i : Z) : Z := own (fst (cell_of r i)) (snd (cell_of r i)).
Definition rdF r own (l : loc) : bool := match l with (A_raster, i, _) | (A_raster2, i, _) => owner r own i <? 0 | _ => true end.
Definition wrF r own (j : Z) (l : loc) : bool := match l with (A_raster, i, _) | (A_raster2, i, _) => owner r own i =? j | _ => false end.
Lemma rd_cell r own two i lyr : rdF r own (cell two i lyr) = (owner r own i <? 0).
Proof. unfold cell. destruct two; reflexivity. Qed.
Lemma wr_cell r own j two i lyr : wrF r own j (cell two i lyr) = (owner r own i =? j).
Proof. unfold cell. destruct two; reflexivity. Qed.
Lemma pinned_rd r own l z : pinned r l z -> rdF r own l = true.
Proof. destruct 1; reflexivity. Qed.

Section K.
Variables (m0 : mem T D) (r0 : raster T) (own : Z -> Z -> Z).
Hypothesis H0 : forall l z, pinned r0 l z -> m0 l = Some (WI z).
Hypothesis S0 : shape r0.
Notation G := (guard (Kin m0)).
Notation rd := (rdF r0 own).
Notation wr := (wrF r0 own).

Lemma reach_fits j p q : reach r0 p q -> fits rd (wr j) (G q) -> fits rd (wr j) (G p).
Proof.
  induction 1 as [p|l k z q P R IH]; [auto|]. intros F. cbn [rdI guard fits]. split; [rewrite (pinned_rd _ _ _ _ P); reflexivity|]. intros w. unfold Kin. rewrite (H0 l z P). destruct w as [z'|x|d]; cbn [guard fits]; auto.
  destruct (Z.eqb_spec z' z) as [->|NE]; [apply IH, F|exact I].
Qed.
Lemma reach_run m p q : (forall l z, pinned r0 l z -> m l = Some (WI z)) -> reach r0 p q -> run (G p) m = run (G q) m.
Proof.
  intros HM. induction 1 as [p|l k z q P R IH]; [reflexivity|]. cbn [rdI guard run]. rewrite (HM l z P). unfold Kin at 1. rewrite (H0 l z P), Z.eqb_refl. exact IH.
Qed.
Lemma reach_pinned r p q : (forall l z, pinned r l z -> pinned r0 l z) -> reach r p q -> reach r0 p q.
Proof. intros PI. induction 1; [constructor|]. eapply reach_rd; eauto. Qed.

Lemma client_fits j c : may r0 own j c -> fits rd (wr j) (G (clientP c)).
Proof.
  induction c as [|c k IH]; intros M; [exact I|]. cbn [clientP may] in *. destruct M as [MC MK].
  destruct (call_reach r0 c (fun a => Add a (clientP (k a))) S0) as [(a & _ & R)|[(l & x & R & _ & _ & L)|(row & col & v & lyr & i & r' & -> & R & _ & B & LY & CO & W)]].
  - eapply reach_fits; [exact R|]. cbn [guard fits]. apply IH, MK.
  - eapply reach_fits; [exact R|]. cbn [rdT guard fits]. split.
    + destruct L as [->|(i & lyr & -> & B & C)]; [reflexivity|]. rewrite rd_cell, wr_cell. unfold owner. destruct c as [row col lyr'|j' lyr'|row col|row col v lyr']; try contradiction; cbn [may_call] in MC.
      * rewrite C. cbn [fst snd]. lia.
      * subst j'. destruct (shape_cell r0 i S0 B) as [IN PO]. specialize (MC _ _ IN PO). lia.
    + intros w. unfold Kin. destruct w as [z|y|d].
      * destruct (m0 l) as [[z0| |]|]; try exact I. destruct (z =? z0); exact I.
      * cbn [guard fits]. apply IH, MK.
      * exact I.
  - eapply reach_fits; [exact R|]. cbn [guard fits]. split; [|apply IH, MK]. rewrite wr_cell. unfold owner. rewrite CO. cbn [fst snd]. cbn [may_call] in MC. lia.
Qed.

Lemma client_run c : forall m r, shape r -> (forall l z, pinned r l z <-> pinned r0 l z) -> holds m r ->
  exists m' r' ans, run (G (clientP c)) m = Some (m', ans) /\ client_seq r c = Ok (r', ans) /\ holds m' r' /\ shape r' /\ (forall l z, pinned r' l z <-> pinned r0 l z).
Proof.
  induction c as [|c k IH]; intros m r SH PI HM; [exists m, r, []; cbn; auto|]. cbn [clientP client_seq].
  assert (RM : forall l z, pinned r0 l z -> m l = Some (WI z)) by (intros l z P; apply (holds_pinned m r); [exact HM|apply PI, P]).
  destruct (call_reach r c (fun a => Add a (clientP (k a))) SH) as [(a & E & R)|[(l & x & R & E & V & L)|(row & col & v & lyr & i & r' & -> & R & E & B & LY & CO & W)]];
    apply (reach_pinned r) in R; try (intros; apply PI; assumption); rewrite (reach_run m _ _ RM R), E; cbn [obind fst snd].
  - destruct (IH a m r SH PI HM) as (m' & r' & ans & Q1 & Q2 & Q3). cbn [guard run]. rewrite Q1, Q2. cbn [obind fst snd]. exists m', r', (a :: ans). auto.
  - destruct (IH (AVal x) m r SH PI HM) as (m' & r' & ans & Q1 & Q2 & Q3). cbn [rdT guard run]. rewrite (V m HM). cbn [Kin guard run]. rewrite Q1, Q2. cbn [obind fst snd]. exists m', r', (AVal x :: ans). auto.
  - destruct (write_holds m r i lyr v r' SH HM B LY W) as (NN & HM' & SH' & PI' & E2 & _ & _). destruct (IH ADone (set m (cell (r_is2d r) i lyr) (WT v)) r' SH') as (m' & r2 & ans & Q1 & Q2 & Q3); [intros l z; rewrite PI'; apply PI|exact HM'|].
    cbn [guard run]. destruct (m (cell (r_is2d r) i lyr)); [|contradiction]. rewrite Q1, Q2. cbn [obind fst snd]. exists m', r2, (ADone :: ans). auto.
Qed.
Lemma turn_run cl ord : forall m r, shape r -> (forall l z, pinned r l z <-> pinned r0 l z) -> holds m r ->
  exists m' r' ans, run (forl ord (fun i => G (clientP (cl i)))) m = Some (m', ans) /\ in_turn cl ord r = Ok (r', ans) /\ holds m' r'.
Proof.
  induction ord as [|i ord IH]; intros m r SH PI HM; [exists m, r, []; cbn; auto|]. cbn [forl in_turn]. rewrite run_seq.
  destruct (client_run (cl i) m r SH PI HM) as (m1 & r1 & a1 & E1 & Q1 & HM1 & SH1 & PI1). rewrite E1, Q1. cbn [obind fst snd]. destruct (IH m1 r1 SH1 PI1 HM1) as (m2 & r2 & a2 & E2 & Q2 & HM2). rewrite E2, Q2. cbn [obind fst snd]. eauto 6.
Qed.
End K.

Lemma holds_ext m m' r : (forall l, m l = m' l) -> holds m r -> holds m' r.
Proof.
  intros E (H1&H2&H3&H4&H5&H6&H7&H8&H9&H10&H11&H12&H13). unfold holds. rewrite <- !E. repeat (split; [assumption|]). split.
  - intros ix i z A B. rewrite <- E. eapply H12; eassumption.
  - unfold shows in *. destruct (r_is2d r).
    + intros. rewrite <- E. eapply H13; eassumption.
    + intros. rewrite <- E. eapply H13; eassumption.
Qed.

Theorem share n (cl : Z -> client T D) own r m0 : shape r -> holds m0 r -> (forall i, 0 <= i < n -> may r own i (cl i)) ->
  exists m1 ans, parallel_for n (fun i => clientP (cl i)) m0 m1 ans /\
    (forall i, 0 <= i < n -> exists r', client_seq r (cl i) = Ok (r', ans i)) /\
    (forall ord, Permutation ord (zseq n) -> exists r', in_turn cl ord r = Ok (r', concat (map ans ord)) /\ holds m1 r').
Proof.
  intros SH HM MAY. set (body := fun i => guard (Kin m0) (clientP (cl i))).
  assert (H0 : forall l z, pinned r l z -> m0 l = Some (WI z)) by (intros l z; apply holds_pinned, HM).
  assert (PI : forall l z, pinned r l z <-> pinned r l z) by (intros; tauto).
  set (ans := fun i => match run (body i) m0 with Some (_, a) => a | None => [] end).
  set (after := fun i (l : loc) => match run (body i) m0 with Some (m, _) => m l | None => m0 l end).
  set (m1 := fun l : loc => match l with (A_raster, i, _) | (A_raster2, i, _) => let o := owner r own i in if (0 <=? o) && (o <? n) then after o l else m0 l | _ => m0 l end).
  assert (IND : forall i j l, 0 <= i < n -> 0 <= j < n -> i <> j -> wrF r own i l = true -> rdF r own l || wrF r own j l = false).
  { intros i j [[[] a] b] Bi Bj NE W; cbn in *; try discriminate; lia. }
  assert (FIT : forall i, 0 <= i < n -> fits (rdF r own) (wrF r own i) (body i)) by (intros i B; apply client_fits; auto).
  assert (RUN : forall i, 0 <= i < n -> exists mi, run (body i) m0 = Some (mi, ans i) /\ forall l, wrF r own i l = true -> mi l = m1 l).
  { intros i B. destruct (client_run m0 r H0 (cl i) m0 r SH PI HM) as (mi & ri & a & E & _). fold (body i) in E. exists mi. split; [unfold ans; rewrite E; reflexivity|].
    intros [[[] x] y] W; cbn in W; try discriminate; unfold m1; cbv zeta; (assert (EO : owner r own x = i) by lia); rewrite EO; replace ((0 <=? i) && (i <? n)) with true by lia; unfold after; rewrite E; reflexivity. }
  assert (OUT : forall l, (forall i, 0 <= i < n -> wrF r own i l = false) -> m1 l = m0 l).
  { intros [[[] x] y] W; try reflexivity; unfold m1; cbv zeta; (destruct ((0 <=? owner r own x) && (owner r own x <? n)) eqn:Q; [|reflexivity]); specialize (W (owner r own x) ltac:(lia)); cbn in W; lia. }
  exists m1, ans. split; [|split].
  - apply (under_par n _ body); [intros i B; apply guard_under|]. apply (par_safe n body m0 m1 ans (fun _ => rdF r own) (wrF r own)); assumption.
  - intros i B. destruct (client_run m0 r H0 (cl i) m0 r SH PI HM) as (mi & ri & a & E & Q & _). fold (body i) in E. exists ri. unfold ans. rewrite E. exact Q.
  - intros ord P. destruct (turn_run m0 r H0 cl ord m0 r SH PI HM) as (m' & r' & a & E & Q & H'). exists r'.
    assert (DO : Forall (fun i => 0 <= i < n) ord) by (apply Forall_forall; intros i I; apply zseq_In; eapply Permutation_in; [exact P|exact I]).
    destruct (chunk_run body m0 m1 ans (fun _ => rdF r own) (wrF r own) (fun i => 0 <= i < n) FIT IND RUN ord m0 DO) as (m2 & E2 & W2); [eapply Permutation_NoDup; [apply Permutation_sym, P|apply zseq_nodup]|intros l _; reflexivity|].
    fold body in E. rewrite E in E2. injection E2 as <- <-. split; [exact Q|]. apply (holds_ext m'); [|exact H']. intros l. destruct (any (wrF r own) ord l) eqn:A; [apply W2, A|].
    rewrite (run_outside _ _ _ _ _ _ (chunk_fits body (fun _ => rdF r own) (wrF r own) (fun i => 0 <= i < n) FIT ord DO) E l A). symmetry. apply OUT. intros i B. apply not_true_iff_false. intros X.
    assert (Z : any (wrF r own) ord l = true) by (apply any_in; exists i; split; [eapply Permutation_in; [apply Permutation_sym, P|apply zseq_In, B]|exact X]). congruence.
Qed.
End S.
