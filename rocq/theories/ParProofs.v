From Coq Require Import ZArith List Bool Lia Permutation.
From Verif Require Import Base RasterModel ListLib ParModel ParSpec.
Import ListNotations.
Open Scope Z_scope.

Section Gen.
Context {T D R : Type}.
Implicit Types (p q : prog T D R) (m : mem T D).

(** A program in a thread of its own. *)
Fixpoint run p m : option (mem T D * list R) :=
  match p with
  | Done => Some (m, [])
  | Bad => None
  | Rd l k => match m l with Some w => run (k w) m | None => None end
  | Wr l w p => match m l with Some _ => run p (set m l w) | None => None end
  | Add r p => match run p m with Some (m', rs) => Some (m', r :: rs) | None => None end
  end.
Fixpoint fits (rd wr : loc -> bool) p : Prop :=
  match p with
  | Done | Bad => True
  | Rd l k => (rd l || wr l = true) /\ forall w, fits rd wr (k w)
  | Wr l w p => wr l = true /\ fits rd wr p
  | Add _ p => fits rd wr p
  end.
Definition agree (F : loc -> Prop) m m' := forall l, F l -> m l = m' l.

Lemma run_seq p : forall q m, run (seqp p q) m = match run p m with Some (m1, r1) => match run q m1 with Some (m2, r2) => Some (m2, r1 ++ r2) | None => None end | None => None end.
Proof.
  induction p as [| |l k IH|l w p IH|r p IH]; intros q m; cbn [seqp run].
  - destruct (run q m) as [[? ?]|]; reflexivity.
  - reflexivity.
  - destruct (m l); [apply IH|reflexivity].
  - destruct (m l); [apply IH|reflexivity].
  - rewrite IH. destruct (run p m) as [[m1 r1]|]; [|reflexivity]. destruct (run q m1) as [[m2 r2]|]; reflexivity.
Qed.
Lemma fits_seq rd wr p : forall q, fits rd wr p -> fits rd wr q -> fits rd wr (seqp p q).
Proof. induction p as [| |l k IH|l w p IH|r p IH]; intros q; cbn [seqp fits]; intuition auto. Qed.
Lemma fits_mono (rd wr rd' wr' : loc -> bool) p : (forall l, rd l = true -> rd' l = true) -> (forall l, wr l = true -> wr' l = true) -> fits rd wr p -> fits rd' wr' p.
Proof.
  intros A B. induction p as [| |l k IH|l w p IH|r p IH]; cbn [fits]; auto.
  - intros [C E]. split; [|auto]. apply orb_true_iff in C. apply orb_true_iff. destruct C; auto.
  - intros [C E]. auto.
Qed.
Lemma fits_forl rd wr c f : (forall i, In i c -> fits rd wr (f i)) -> fits rd wr (forl c f).
Proof. induction c as [|i c IH]; intros H; cbn [forl]; [exact I|]. apply fits_seq; [apply H; left; reflexivity|apply IH; intros j J; apply H; right; exact J]. Qed.

Lemma set_same m l w : set m l w l = Some w.
Proof. unfold set. destruct (loc_dec l l); congruence. Qed.
Lemma set_other m l w x : l <> x -> set m l w x = m x.
Proof. unfold set. destruct (loc_dec l x); congruence. Qed.

(** The same on memories that agree where the program reads and writes. *)
Lemma run_agree rd wr p : forall m m' m1 r, fits rd wr p -> agree (fun l => rd l || wr l = true) m m' -> run p m = Some (m1, r) ->
  exists m1', run p m' = Some (m1', r) /\ agree (fun l => rd l || wr l = true) m1 m1'.
Proof.
  induction p as [| |l k IH|l w p IH|d p IH]; intros m m' m1 r F A E; cbn [run fits] in *.
  - injection E as <- <-. eauto.
  - discriminate.
  - destruct F as [F1 F2]. rewrite <- (A l F1). destruct (m l) as [w|]; [|discriminate]. eapply IH; eauto.
  - destruct F as [F1 F2]. assert (FL : rd l || wr l = true) by (rewrite F1; apply orb_true_r). rewrite <- (A l FL). destruct (m l) as [w0|]; [|discriminate].
    apply (IH (set m l w)); [exact F2| |exact E]. intros x X. unfold set. destruct (loc_dec l x); [reflexivity|apply A, X].
  - destruct (run p m) as [[m2 r2]|] eqn:P; [|discriminate]. injection E as <- <-. destruct (IH m m' m2 r2 F A P) as (m1' & E' & A'). rewrite E'. eauto.
Qed.
Lemma run_outside rd wr p : forall m m1 r, fits rd wr p -> run p m = Some (m1, r) -> forall l, wr l = false -> m1 l = m l.
Proof.
  induction p as [| |l k IH|l w p IH|d p IH]; intros m m1 r F E x X; cbn [run fits] in *.
  - injection E as <- <-. reflexivity.
  - discriminate.
  - destruct F as [F1 F2]. destruct (m l) as [w|]; [|discriminate]. eapply IH; eauto.
  - destruct F as [F1 F2]. destruct (m l) as [w0|]; [|discriminate]. rewrite (IH _ _ _ F2 E x X). apply set_other. congruence.
  - destruct (run p m) as [[m2 r2]|] eqn:P; [|discriminate]. injection E as <- <-. eapply IH; eauto.
Qed.

(** Independent iterations. *)
Section Indep.
Variables (body : Z -> prog T D R) (m0 m1 : mem T D) (added : Z -> list R) (rd wr : Z -> loc -> bool) (dom : Z -> Prop).
Hypothesis Hfit : forall i, dom i -> fits (rd i) (wr i) (body i).
Hypothesis Hind : forall i j l, dom i -> dom j -> i <> j -> wr i l = true -> rd j l || wr j l = false.
Hypothesis Hrun : forall i, dom i -> exists mi, run (body i) m0 = Some (mi, added i) /\ forall l, wr i l = true -> mi l = m1 l.

Definition any (g : Z -> loc -> bool) (c : list Z) (l : loc) : bool := existsb (fun i => g i l) c.
Lemma any_in g c l : any g c l = true <-> exists i, In i c /\ g i l = true.
Proof. unfold any. apply existsb_exists. Qed.

Lemma chunk_fits c : Forall dom c -> fits (any rd c) (any wr c) (forl c body).
Proof.
  intros H. rewrite Forall_forall in H. apply fits_forl. intros i I. apply (fits_mono (rd i) (wr i)); [| |apply Hfit, H, I]; intros l L; apply any_in; eauto.
Qed.
Lemma chunk_run c : forall m, Forall dom c -> NoDup c -> agree (fun l => any rd c l || any wr c l = true) m m0 ->
  exists m', run (forl c body) m = Some (m', concat (map added c)) /\ forall l, any wr c l = true -> m' l = m1 l.
Proof.
  induction c as [|i c IH]; intros m H N A; cbn [forl run map concat].
  - exists m. split; [reflexivity|]. intros l L. discriminate.
  - inversion H as [|? ? Di Dc]; subst. inversion N as [|? ? Ni Nc]; subst.
    assert (NE : forall j, In j c -> dom j /\ i <> j) by (rewrite Forall_forall in Dc; intros j J; split; [apply Dc, J|intros ->; contradiction]).
    destruct (Hrun i Di) as (mi & Ei & Wi).
    destruct (run_agree (rd i) (wr i) (body i) m0 m mi (added i) (Hfit i Di)) as (m2 & E2 & A2); [|exact Ei|].
    { intros l L. symmetry. apply A. unfold any. cbn [existsb]. apply orb_true_iff in L. destruct L as [L|L]; rewrite L; cbn [orb]; rewrite ?orb_true_r; reflexivity. }
    destruct (IH m2 Dc Nc) as (m' & E' & W').
    { intros l L. assert (X : wr i l = false).
      { destruct (wr i l) eqn:X; [|reflexivity]. apply orb_true_iff in L. exfalso. destruct L as [L|L]; apply any_in in L; destruct L as (j & J & Lj); destruct (NE j J) as [Dj Nj];
          pose proof (Hind i j l Di Dj Nj X) as Q; rewrite Lj in Q; rewrite ?orb_true_r in Q; discriminate. }
      rewrite (run_outside (rd i) (wr i) (body i) m m2 (added i) (Hfit i Di) E2 l X). apply A. unfold any in *. cbn [existsb].
      apply orb_true_iff in L. destruct L as [L|L]; rewrite L; rewrite ?orb_true_r; reflexivity. }
    rewrite run_seq, E2, E'. exists m'. split; [reflexivity|]. intros l L. destruct (any wr c l) eqn:Lc; [apply W', Lc|].
    unfold any in L. cbn [existsb] in L. unfold any in Lc. rewrite Lc, orb_false_r in L.
    rewrite (run_outside _ _ _ _ _ _ (chunk_fits c Dc) E' l Lc). rewrite <- (A2 l) by (rewrite L; apply orb_true_r). apply Wi, L.
Qed.
End Indep.

Lemma upd_len {A} (a : list A) n v : length (upd a n v) = length a.
Proof. apply upd_length. Qed.
Lemma nodup_tail {A} (a b : list A) : NoDup (a ++ b) -> NoDup b.
Proof. induction a; [auto|]. cbn [app]. intros N. inversion N; auto. Qed.
Lemma nodup_head {A} (a b : list A) : NoDup (a ++ b) -> NoDup a.
Proof. induction a; [constructor|]. cbn [app]. intros N. inversion N; subst. constructor; [intros J; apply H1, in_or_app; auto|auto]. Qed.
Lemma nodup_apart (cs : list (list Z)) : NoDup (concat cs) -> forall t u c d i, nth_error cs t = Some c -> nth_error cs u = Some d -> t <> u -> In i c -> In i d -> False.
Proof.
  induction cs as [|x cs IH]; intros N t u c d i C E NE I J; [destruct t; discriminate|]. cbn [concat] in N.
  assert (X : forall k y, nth_error cs k = Some y -> In i y -> In i x -> False).
  { intros k y K Y Z. clear - N K Y Z. apply nth_error_In in K. assert (Q : In i (concat cs)) by (apply in_concat; eauto). clear K Y.
    induction x as [|a x IHx]; [destruct Z|]. cbn [app] in N. inversion N; subst. destruct Z as [->|Z]; [apply H1, in_or_app; auto|apply IHx; auto]. }
  destruct t as [|t], u as [|u]; cbn [nth_error] in *; try congruence.
  - injection C as ->. eauto.
  - injection E as ->. eauto.
  - apply (IH (nodup_tail _ _ N) t u c d i); auto.
Qed.
Lemma nodup_chunk (cs : list (list Z)) : NoDup (concat cs) -> forall t c, nth_error cs t = Some c -> NoDup c.
Proof.
  induction cs as [|x cs IH]; intros N t c C; [destruct t; discriminate|]. cbn [concat] in N. destruct t as [|t]; cbn [nth_error] in C.
  - injection C as ->. apply (nodup_head _ _ N).
  - apply (IH (nodup_tail _ _ N) t c C).
Qed.
Lemma zseq_nodup n : NoDup (zseq n).
Proof. unfold zseq. apply FinFun.Injective_map_NoDup; [intros a b; apply Nat2Z.inj|apply seq_NoDup]. Qed.

Theorem par_safe n body m0 m1 added (rd wr : Z -> loc -> bool) :
  (forall i, 0 <= i < n -> fits (rd i) (wr i) (body i)) ->
  (forall i j l, 0 <= i < n -> 0 <= j < n -> i <> j -> wr i l = true -> rd j l || wr j l = false) ->
  (forall i, 0 <= i < n -> exists mi, run (body i) m0 = Some (mi, added i) /\ forall l, wr i l = true -> mi l = m1 l) ->
  (forall l, (forall i, 0 <= i < n -> wr i l = false) -> m1 l = m0 l) ->
  parallel_for n body m0 m1 added.
Proof.
  intros Hfit Hind Hrun Hout chunks tr m ps P X. set (dom := fun i => 0 <= i < n).
  assert (DOM : forall t c, nth_error chunks t = Some c -> Forall dom c).
  { intros t c C. apply Forall_forall. intros i I. apply zseq_In. eapply Permutation_in; [exact P|]. apply in_concat. exists c. split; [eapply nth_error_In, C|exact I]. }
  assert (ND : NoDup (concat chunks)) by (eapply Permutation_NoDup; [apply Permutation_sym, P|apply zseq_nodup]).
  assert (APART : forall t u c d l, nth_error chunks t = Some c -> nth_error chunks u = Some d -> t <> u -> any wr c l = true -> any rd d l || any wr d l = false).
  { intros t u c d l C E NE L. apply any_in in L. destruct L as (i & Ii & Li). apply orb_false_iff. split; apply not_true_iff_false; intros Q; apply any_in in Q; destruct Q as (j & Ij & Lj);
      (assert (NIJ : i <> j) by (intros ->; eapply (nodup_apart chunks ND t u c d j); eauto));
      pose proof (Hind i j l (proj1 (Forall_forall _ _) (DOM t c C) i Ii) (proj1 (Forall_forall _ _) (DOM u d E) j Ij) NIJ Li) as Q; apply orb_false_iff in Q; destruct Q; congruence. }
  set (good := fun m (ps : list (thread T D R)) => length ps = length chunks /\ (forall l, (forall i, dom i -> wr i l = false) -> m l = m0 l) /\
    forall t p r c, nth_error ps t = Some (p, r) -> nth_error chunks t = Some c ->
      fits (any rd c) (any wr c) p /\ exists m' r', run p m = Some (m', r') /\ r ++ r' = concat (map added c) /\ forall l, any wr c l = true -> m' l = m1 l).
  set (legal := fun e : event => let '(t, b, l) := e in exists c, nth_error chunks t = Some c /\ (if b then any wr c l = true else any rd c l || any wr c l = true)).
  assert (G0 : good m0 (start body chunks)).
  { unfold good, start. rewrite map_length. split; [reflexivity|]. split; [reflexivity|]. intros t p r c E C. rewrite nth_error_map, C in E. cbn [option_map] in E. injection E as <- <-.
    split; [apply (chunk_fits body rd wr dom Hfit), (DOM t c C)|].
    destruct (chunk_run body m0 m1 added rd wr dom Hfit Hind Hrun c m0 (DOM t c C) (nodup_chunk chunks ND t c C)) as (m' & E & W); [intros l _; reflexivity|]. exists m', (concat (map added c)). auto. }
  assert (NTH : forall (qs : list (thread T D R)) t v u p r, nth_error (upd qs t v) u = Some (p, r) -> (u = t /\ v = (p, r)) \/ (u <> t /\ nth_error qs u = Some (p, r))).
  { intros qs t v u p r E. rewrite upd_nth in E. destruct (Nat.eqb_spec u t) as [->|NE]; cbn [andb] in E; [|right; auto].
    destruct (Nat.ltb_spec t (length qs)); [left; split; [reflexivity|congruence]|]. exfalso. apply nth_error_None in H. congruence. }
  assert (CH : forall qs t v, length qs = length chunks -> nth_error qs t = Some (v : thread T D R) -> exists c, nth_error chunks t = Some c).
  { intros qs t v L E. destruct (nth_error chunks t) as [c|] eqn:C; [eauto|]. apply nth_error_None in C. assert (Q : nth_error qs t = None) by (apply nth_error_None; lia). congruence. }
  assert (STEP : forall ma pa e mb pb, good ma pa -> step ma pa e mb pb -> good mb pb /\ Forall legal e).
  { intros ma pa e mb pb (L & O & G) S. destruct S as [t l k r w E M|t l w p r w0 E M|t d p r E].
    - destruct (CH pa t _ L E) as (c & C). destruct (G t _ _ c E C) as (F & m' & r' & Q & RR & W). cbn [run fits] in *. rewrite M in Q.
      split; [|constructor; [exists c; split; [exact C|apply F]|constructor]]. split; [rewrite upd_len; exact L|]. split; [exact O|]. intros u pu ru d U Du.
      destruct (NTH _ _ _ _ _ _ U) as [[-> V]|[NE V]]; [|apply (G u); assumption]. injection V as <- <-. assert (d = c) by congruence. subst d. split; [apply F|]. exists m', r'. auto.
    - destruct (CH pa t _ L E) as (c & C). destruct (G t _ _ c E C) as (F & m' & r' & Q & RR & W). cbn [run fits] in *. rewrite M in Q.
      split; [|constructor; [exists c; split; [exact C|apply F]|constructor]]. destruct F as [FL F]. split; [rewrite upd_len; exact L|]. split.
      + intros x Hx. rewrite set_other; [apply O, Hx|]. intros ->. apply any_in in FL. destruct FL as (i & Ii & Wi). rewrite (Hx i) in Wi; [discriminate|].
        apply (proj1 (Forall_forall _ _) (DOM t c C) i Ii).
      + intros u pu ru d U Du. destruct (NTH _ _ _ _ _ _ U) as [[-> V]|[NE V]].
        * injection V as <- <-. assert (d = c) by congruence. subst d. split; [exact F|]. exists m', r'. auto.
        * destruct (G u _ _ d V Du) as (Fu & mu & ru' & Qu & RRu & Wu). split; [exact Fu|].
          destruct (run_agree _ _ pu ma (set ma l w) mu ru' Fu) as (mu' & Qu' & Au); [|exact Qu|].
          { intros x Hx. symmetry. apply set_other. intros ->. rewrite (APART t u c d x C Du) in Hx; [discriminate|congruence|exact FL]. }
          exists mu', ru'. split; [exact Qu'|]. split; [exact RRu|]. intros x Hx. rewrite <- (Au x) by (rewrite Hx; apply orb_true_r). apply Wu, Hx.
    - destruct (CH pa t _ L E) as (c & C). destruct (G t _ _ c E C) as (F & m' & r' & Q & RR & W). cbn [run fits] in *.
      split; [|constructor]. split; [rewrite upd_len; exact L|]. split; [exact O|]. intros u pu ru e U Du.
      destruct (NTH _ _ _ _ _ _ U) as [[-> V]|[NE V]]; [|apply (G u); assumption]. injection V as <- <-. assert (e = c) by congruence. subst e. split; [exact F|].
      destruct (run p ma) as [[mp rp]|]; [|discriminate]. injection Q as <- <-. exists mp, rp. split; [reflexivity|]. split; [rewrite <- app_assoc; exact RR|exact W]. }
  assert (INV : good m ps /\ Forall legal tr).
  { clear -X G0 STEP. induction X as [|tr m2 ps2 e m3 ps3 X IH S]; [split; [exact G0|constructor]|]. destruct IH as [G L]. destruct (STEP _ _ _ _ _ G S) as [G' L']. split; [exact G'|]. apply Forall_app. auto. }
  destruct INV as [G LEGAL]. split; [|split; [|split]].
  - intros (t & u & a & b & l & E1 & E2 & NE & AB). rewrite Forall_forall in LEGAL. pose proof (LEGAL _ E1) as L1. pose proof (LEGAL _ E2) as L2. cbn in L1, L2.
    destruct L1 as (c & C & L1), L2 as (d & Dd & L2). destruct AB as [-> | ->].
    + rewrite (APART t u c d l C Dd NE L1) in L2. pose proof (APART t u c d l C Dd NE L1) as Q. apply orb_false_iff in Q. destruct b; destruct Q; congruence.
    + pose proof (APART u t d c l Dd C (not_eq_sym NE) L2) as Q. apply orb_false_iff in Q. destruct Q as [Q1 Q2]. rewrite Q1, Q2 in L1. destruct a; discriminate.
  - intros th I S. apply In_nth_error in I. destruct I as (t & E). destruct G as (L & O & G). destruct (CH ps t th L E) as (c & C). destruct th as [p r]. destruct (G t p r c E C) as (F & m' & r' & Q & _ & _).
    unfold stuck in S. cbn [fst] in S. destruct p; cbn [run] in Q; try rewrite S in Q; try discriminate; contradiction.
  - intros FIN. destruct G as (L & O & G). split.
    + intros l. destruct (existsb (fun i => wr i l) (concat chunks)) eqn:E.
      * apply existsb_exists in E. destruct E as (i & I & W). apply in_concat in I. destruct I as (c & C & I). apply In_nth_error in C. destruct C as (t & C).
        destruct (nth_error ps t) as [[p r]|] eqn:E; [|apply nth_error_None in E; assert (nth_error chunks t = None) by (apply nth_error_None; lia); congruence].
        pose proof (FIN (p, r) (nth_error_In _ _ E)) as FP. cbn [fst] in FP. subst p. destruct (G t _ _ c E C) as (F & m' & r' & Q & _ & WW). cbn [run] in Q. injection Q as <- <-. apply WW. apply any_in. eauto.
      * assert (N : forall i, dom i -> wr i l = false).
        { intros i Di. destruct (wr i l) eqn:W; [|reflexivity]. assert (Q : existsb (fun i => wr i l) (concat chunks) = true).
          { apply existsb_exists. exists i. split; [|exact W]. eapply Permutation_in; [apply Permutation_sym, P|]. apply zseq_In. exact Di. }
          congruence. }
        rewrite (O l N). symmetry. apply Hout, N.
    + apply nth_error_ext. intros t. rewrite !nth_error_map. destruct (nth_error ps t) as [[p r]|] eqn:E.
      * destruct (CH ps t _ L E) as (c & C). pose proof (FIN (p, r) (nth_error_In _ _ E)) as FP. cbn [fst] in FP. subst p. destruct (G t _ _ c E C) as (F & m' & r' & Q & RR & _). cbn [run] in Q. injection Q as <- <-.
        rewrite C. transitivity (option_map snd (Some ((Done, r) : thread T D R))); [f_equal; exact E|]. cbn [option_map snd]. rewrite app_nil_r in RR. rewrite RR. reflexivity.
      * apply nth_error_None in E. assert (Q : nth_error chunks t = None) by (apply nth_error_None; lia). rewrite Q. transitivity (option_map snd (None : option (thread T D R))); [f_equal; apply nth_error_None; exact E|reflexivity].
  - assert (ONE : forall p t r ma pa, good ma pa -> nth_error pa t = Some (p, r) -> exists tr' mb pb r', exec ma pa tr' mb pb /\ good mb pb /\ nth_error pb t = Some (Done, r') /\ forall u, u <> t -> nth_error pb u = nth_error pa u).
    { assert (TRANS : forall (ma : mem T D) (pa : list (thread T D R)) tr1 mb pb, exec ma pa tr1 mb pb -> forall m' ths e, step m' ths e ma pa -> exists tr2, exec m' ths tr2 mb pb).
      { intros ma pa tr1 mb pb E. induction E; intros m' ths e' S.
        - exists ([] ++ e'). eapply exec_next; [constructor|exact S].
        - destruct (IHE _ _ _ S) as (tr2 & E2). exists (tr2 ++ e). eapply exec_next; eauto. }
      assert (UT : forall (pa : list (thread T D R)) t v w, nth_error pa t = Some v -> nth_error (upd pa t w) t = Some w).
      { intros pa t v w E. rewrite upd_nth, Nat.eqb_refl. destruct (Nat.ltb_spec t (length pa)); [reflexivity|]. apply nth_error_None in H. congruence. }
      assert (UO : forall (pa : list (thread T D R)) t w u, u <> t -> nth_error (upd pa t w) u = nth_error pa u).
      { intros pa t w u NE. rewrite upd_nth. destruct (Nat.eqb_spec u t); [contradiction|reflexivity]. }
      assert (GO : forall p t r ma (pa : list (thread T D R)) q ra mb e, good ma pa -> nth_error pa t = Some (p, r) -> step ma pa e mb (upd pa t (q, ra)) ->
        (forall t r ma pa, good ma pa -> nth_error pa t = Some (q, r) -> exists tr' mb pb r', exec ma pa tr' mb pb /\ good mb pb /\ nth_error pb t = Some (Done, r') /\ forall u, u <> t -> nth_error pb u = nth_error pa u) ->
        exists tr' mb pb r', exec ma pa tr' mb pb /\ good mb pb /\ nth_error pb t = Some (Done, r') /\ forall u, u <> t -> nth_error pb u = nth_error pa u).
      { intros p t r ma pa q ra mb e Ga E S IH. destruct (STEP _ _ _ _ _ Ga S) as [Gb _].
        destruct (IH t ra mb (upd pa t (q, ra)) Gb (UT _ _ _ _ E)) as (tr' & mc & pc & r' & EX & Gc & Ec & Oc). destruct (TRANS _ _ _ _ _ EX _ _ _ S) as (tr2 & EX2).
        exists tr2, mc, pc, r'. split; [exact EX2|]. split; [exact Gc|]. split; [exact Ec|]. intros u NE. rewrite (Oc u NE). apply UO, NE. }
      induction p as [| |l k IH|l w p IH|d p IH]; intros t r ma pa Ga E.
      - exists [], ma, pa, r. split; [constructor|]. auto.
      - destruct Ga as (L & O & Ga). destruct (CH pa t _ L E) as (c & C). destruct (Ga t _ _ c E C) as (_ & m' & r' & Q & _). discriminate.
      - pose proof Ga as (L & O & Gx). destruct (CH pa t _ L E) as (c & C). destruct (Gx t _ _ c E C) as (_ & m' & r' & Q & _). cbn [run] in Q. destruct (ma l) as [w|] eqn:M; [|discriminate].
        eapply (GO _ t r ma pa (k w) r ma _ Ga E); [eapply step_rd; eauto|intros; eapply IH; eauto].
      - pose proof Ga as (L & O & Gx). destruct (CH pa t _ L E) as (c & C). destruct (Gx t _ _ c E C) as (_ & m' & r' & Q & _). cbn [run] in Q. destruct (ma l) as [w0|] eqn:M; [|discriminate].
        eapply (GO _ t r ma pa p r (set ma l w) _ Ga E); [eapply step_wr; eauto|intros; eapply IH; eauto].
      - eapply (GO _ t r ma pa p (r ++ [d]) ma _ Ga E); [eapply step_add; eauto|intros; eapply IH; eauto]. }
    assert (TR : forall (ma : mem T D) (pa : list (thread T D R)) tr1 mb pb, exec ma pa tr1 mb pb -> forall tr2 mc pc, exec mb pb tr2 mc pc -> exists tr3, exec ma pa tr3 mc pc).
    { intros ma pa tr1 mb pb E1 tr2 mc pc E2. induction E2; [eauto|]. destruct IHE2 as (tr3 & E3). exists (tr3 ++ e). eapply exec_next; eauto. }
    assert (ALL : forall k, exists tr' mb pb, exec m ps tr' mb pb /\ good mb pb /\ length pb = length ps /\ forall t p r, (t < k)%nat -> nth_error pb t = Some (p, r) -> p = Done).
    { induction k as [|k (tr' & mb & pb & EX & Gb & Lb & Hb)]; [exists [], m, ps; split; [constructor|]; split; [exact G|]; split; [reflexivity|]; intros; lia|].
      destruct (nth_error pb k) as [[p r]|] eqn:E.
      - destruct (ONE p k r mb pb Gb E) as (tr2 & mc & pc & r' & EX2 & Gc & Ec & Oc). destruct (TR _ _ _ _ _ EX _ _ _ EX2) as (tr3 & EX3). exists tr3, mc, pc. split; [exact EX3|]. split; [exact Gc|].
        split; [rewrite (proj1 Gc), (proj1 G); reflexivity|]. intros t q s Ht Et. destruct (Nat.eq_dec t k) as [->|NE]; [congruence|]. rewrite (Oc t NE) in Et. apply (Hb t q s); [lia|exact Et].
      - exists tr', mb, pb. split; [exact EX|]. split; [exact Gb|]. split; [exact Lb|]. intros t q s Ht Et. destruct (Nat.eq_dec t k) as [->|NE]; [congruence|]. apply (Hb t q s); [lia|exact Et]. }
    destruct (ALL (length ps)) as (tr' & mb & pb & EX & Gb & Lb & Hb). exists tr', mb, pb. split; [exact EX|]. intros [p r] I. apply In_nth_error in I. destruct I as (t & E). cbn [fst]. apply (Hb t p r); [|exact E].
    rewrite <- Lb. apply nth_error_Some. congruence.
Qed.
End Gen.
