(** Programs without masks. *)
From Coq Require Import List Bool Arith Lia Permutation.
From Verif Require Import Base OwnModel OwnSpec OwnProofs OwnProofs2 OwnProofs3 OwnProofs4 OwnProofs5.
Import ListNotations.

(** What holds of every result. *)
Definition always {A} (m : M A) (Q : A -> Prop) : Prop := forall h a h', m h = Ok (a, h') -> Q a.
Lemma always_ret {A} (a : A) (Q : A -> Prop) : Q a -> always (ret a) Q.
Proof. intros H h b h' E. injection E as <- _. exact H. Qed.
Lemma always_bind {A B} (m : M A) (k : A -> M B) Q : always m (fun a => always (k a) Q) -> always (bind m k) Q.
Proof.
  intros H h b h' E. unfold bind in E. destruct (m h) as [(a, h1) | | ] eqn:E1; try discriminate. cbn in E.
  exact (H h a h1 E1 h1 b h' E).
Qed.
Lemma always_true {A} (m : M A) (Q : A -> Prop) : (forall a, Q a) -> always m Q.
Proof. intros H h a h' _. apply H. Qed.
Lemma always_cons {A} (m : M A) (P Q : A -> Prop) : always m P -> (forall a, P a -> Q a) -> always m Q.
Proof. intros H I h a h' E. apply I. eapply H; eauto. Qed.
Lemma always_throw {A} (Q : A -> Prop) : always throw Q.
Proof. intros h a h' E. discriminate. Qed.
Lemma always_init1 n : 1 <= n -> always (init1 n None) (fun p => p <> None).
Proof. intros H. destruct n; [lia | ]. unfold init1. apply always_bind, always_true. intro b. apply always_ret. congruence. Qed.
Lemma always_init2 n : always (init2 n None) (fun p => p <> None).
Proof. unfold init2. apply always_bind, always_true. intro b. apply always_ret. congruence. Qed.
Lemma always_init1_from n s : always (init1_from n None s) (fun p => p <> None).
Proof. unfold init1_from. apply always_bind, always_true. intro b. apply always_bind, always_true. intro. apply always_ret. congruence. Qed.
Lemma always_init2_from n s : always (init2_from n None s) (fun p => p <> None).
Proof.
  unfold init2_from. apply always_bind, always_true. intro. apply always_bind. eapply always_cons; [apply always_init2 | ].
  cbn beta. intros b H. apply always_bind, always_true. intro. now apply always_ret.
Qed.

(** Rasters without a mask that have cells. *)
Definition free_of_mask (o : obj) : Prop := omask o = None /\ valid o = true.

Ltac skip := apply always_bind, always_true; intros.

Lemma plain_CalculateValid k o : 1 <= k -> free_of_mask o -> always (CalculateValid k o) free_of_mask.
Proof.
  intros Hk (U & V). unfold CalculateValid. skip. apply always_bind.
  apply always_cons with (P := fun d => if is2d o then snd d <> None else fst d <> None).
  - destruct (is2d o).
    + skip. apply always_bind. eapply always_cons; [apply always_init2 | ]. cbn beta. intros b H. now apply always_ret.
    + skip. apply always_bind. eapply always_cons; [apply always_init1; exact Hk | ]. cbn beta. intros b H. now apply always_ret.
  - intros d D. skip. skip. cbn zeta.
    assert (R : free_of_mask (set_places (set_data o (fst d) (snd d) k) a0 a1 true true k)).
    { split; [exact U | ]. unfold valid. cbn. destruct (is2d o); cbn; rewrite (null_some _ D); reflexivity. }
    destruct k; [now apply always_ret | ]. skip. skip. skip. now apply always_ret.
Qed.
Lemma plain_SetCalcPositions k o : 1 <= k -> free_of_mask o -> always (SetCalcPositions k o) free_of_mask.
Proof.
  intros Hk F. unfold SetCalcPositions. destruct (negb (valid o)); [now apply always_ret | ].
  destruct (calc o && _); [now apply always_ret | ]. destruct (null (pos o) || null (idx o)).
  - apply plain_CalculateValid; auto.
  - now apply always_ret.
Qed.
Lemma plain_ReleaseSubset o : free_of_mask o -> always (ReleaseSubset o) free_of_mask.
Proof. intro F. unfold ReleaseSubset. skip. now apply always_ret. Qed.
Lemma plain_BuildSubSet k ns o : 1 <= k -> free_of_mask o -> always (BuildSubSet k ns o) free_of_mask.
Proof.
  intros Hk F. unfold BuildSubSet. destruct (negb (valid o)); [now apply always_ret | ]. apply always_bind.
  apply always_cons with (P := free_of_mask).
  - destruct (null (pos o) || null (idx o)); [now apply plain_SetCalcPositions | now apply always_ret].
  - intros o1 F1. destruct (subs o1); [ | now apply always_ret]. skip. skip. skip. now apply always_ret.
Qed.
Lemma plain_CalculateStatistics o : free_of_mask o -> always (CalculateStatistics o) free_of_mask.
Proof.
  intro F. unfold CalculateStatistics. destruct (scalc o); [now apply always_ret | ].
  destruct (is2d o && negb (null (d2 o))).
  - skip. skip. now apply always_ret.
  - skip. now apply always_ret.
Qed.
Lemma plain_UpdateStatistics o : free_of_mask o -> always (UpdateStatistics o) free_of_mask.
Proof.
  intro F. unfold UpdateStatistics. apply always_bind. apply always_cons with (P := free_of_mask).
  - destruct (is2d o && scalc o); [ | now apply always_ret]. unfold ReleaseStats. skip. now apply always_ret.
  - intros o1 F1. now apply plain_CalculateStatistics.
Qed.
Lemma plain_in_sub f s o : free_of_mask o -> always (in_sub f s o) free_of_mask.
Proof. intro F. unfold in_sub. destruct (nth_error (subs o) s); [ | apply always_throw]. skip. now apply always_ret. Qed.
Lemma plain_Copy o s : target o -> free_of_mask s -> (is2d o = true -> is2d s = true) -> always (Copy o s) free_of_mask.
Proof.
  intros T (U & V) T2. unfold Copy. do 6 skip. apply always_bind.
  apply always_cons with (P := fun d => if is2d s then snd d <> None else fst d <> None).
  - assert (N2 : (if is2d o && negb (null (d2 o)) && (0 <? ncells o) then None else d2 o) = None).
    { destruct (is2d o) eqn:E; cbn [andb]; [ | now apply (t_d2 o T)].
      destruct (d2 o) as [b | ] eqn:D; cbn [null negb andb]; [ | now destruct (0 <? ncells o)].
      assert (1 <= ncells o) by (apply (t_cells o T); congruence). destruct (Nat.ltb_spec 0 (ncells o)); [reflexivity | lia]. }
    assert (N1 : (if is2d o then d1 o else None) = None).
    { destruct (is2d o) eqn:E; [now apply (t_d1 o T) | reflexivity]. }
    rewrite N1, N2. destruct (is2d s).
    + apply always_bind. eapply always_cons; [apply always_init2_from | ]. cbn beta. intros b H. now apply always_ret.
    + apply always_bind. eapply always_cons; [apply always_init1_from | ]. cbn beta. intros b H. now apply always_ret.
  - intros d D. skip. skip. skip. skip. apply always_ret. split; [exact U | ]. unfold valid. cbn.
    assert (E2 : is2d o || is2d s = is2d s) by (destruct (is2d o); cbn; auto; symmetry; auto). rewrite E2.
    destruct (is2d s); cbn; rewrite (null_some _ D); reflexivity.
Qed.

Definition no_masks (w : world) : Prop := forall i o, objof (w_objs w) i = Some o -> free_of_mask o.

Lemma no_masks_with w i o f w' : no_masks w -> objof (w_objs w) i = Some o -> always (f o) free_of_mask -> with_obj w i f = Ok w' -> no_masks w'.
Proof.
  intros N E A R. unfold with_obj in R. rewrite E in R. destruct (f o (w_heap w)) as [(o', h') | | ] eqn:Ef; try discriminate.
  cbn in R. injection R as <-. intros k q. cbn [w_objs fst]. destruct (Nat.eq_dec i k) as [<- | D].
  - rewrite (objof_put_eq _ _ _ _ E). intro X. injection X as <-. exact (A _ _ _ Ef).
  - rewrite objof_put_ne by exact D. apply N.
Qed.
Lemma no_masks_add w m w' : orderly w -> no_masks w -> always m free_of_mask -> add_obj w m = Ok w' -> no_masks w'.
Proof.
  intros (_ & S) N A R. unfold add_obj in R. destruct (m (w_heap w)) as [(o', h') | | ] eqn:Ef; try discriminate.
  cbn in R. injection R as <-. intros k q. cbn [w_objs fst]. rewrite objof_app.
  - destruct (Nat.eqb k (w_count w)); [intro X; injection X as <-; exact (A _ _ _ Ef) | apply N].
  - intro I. apply (s_below _ _ S) in I. lia.
Qed.

Lemma plain_careful w c : orderly w -> no_masks w -> plain w c -> careful w c.
Proof.
  intros (_ & S) N.
  assert (F : forall i o, objof (w_objs w) i = Some o -> omask o = None /\ valid o = true /\ readable o /\ own_positions o /\ copyable o).
  { intros i o E. destruct (N i o E) as (U & V). destruct (s_ok _ _ S i o E) as (K & KU). destruct (KU U) as (OW & [(C & P) | (C & P & G)]).
    - assert (I := idx_some o K P). unfold readable, copyable. auto 10.
    - unfold readable, copyable. split; [exact U | ]. split; [exact V | ]. split; [now right | ]. split; [exact OW | ]. split; [exact V | congruence]. }
  destruct c; cbn [plain careful]; auto; try contradiction.
  - intros (o & E & _). destruct (F _ _ E) as (A & B & C & _). exists o. auto.
  - intros ((o & E & _) & Hk). destruct (F _ _ E) as (A & B & C & _). split; [exists o; auto | exact Hk].
  - intros ((o & E & _) & Hk & Hn). destruct (F _ _ E) as (A & B & C & _). split; [exists o; auto | auto].
  - intros ((o & E & _) & Hk & Hn). destruct (F _ _ E) as (A & B & C & _). split; [exists o; auto | auto].
  - intros (o & E & _). destruct (F _ _ E) as (A & B & C & _). exists o. auto.
  - intros (o & E & _). destruct (F _ _ E) as (A & B & C & _). exists o. auto.
  - intros (o & E & _). destruct (F _ _ E) as (A & B & C & D & G). exists o. auto.
  - intros (D & o & E & s & Es & A & B). destruct (F _ _ E) as (A1 & B1 & C1 & D1 & G1). destruct (F _ _ Es) as (A2 & B2 & C2 & D2 & G2).
    split; [exact D | ]. split.
    + exists o. split; [exact E | ]. split; [exact D1 | ]. exists s. auto.
    + intros k q Eq X. destruct (F _ _ Eq). congruence.
  - intros (o & E & _). split; [exists o; auto | ]. intros k q Eq X. destruct (F _ _ Eq). congruence.
Qed.

Lemma new_free (two : bool) n l b : free_of_mask (mkObj (if two then None else Some b) (if two then Some b else None) None None false false two false n l n (Some (repeat None 6)) [] None false).
Proof. split; [reflexivity | ]. unfold valid. cbn. destruct two; reflexivity. Qed.

Lemma plain_step w c w' : orderly w -> no_masks w -> plain w c -> step w c = Ok w' -> no_masks w'.
Proof.
  intros W N P R. assert (W0 := W). destruct W0 as (_ & S). destruct c; cbn [plain step] in *; try contradiction.
  - eapply no_masks_add; eauto. unfold FromArray. skip. apply always_ret. apply (new_free false).
  - eapply no_masks_add; eauto. unfold FromArray2D. skip. apply always_ret. apply (new_free true).
  - destruct P as (o & E & _). eapply no_masks_with; eauto. skip. apply always_ret. now apply (N i).
  - destruct P as ((o & E & _) & Hk). eapply no_masks_with; eauto. cbn beta. destruct (N i o E) as (U & V). rewrite U.
    apply plain_SetCalcPositions; [exact Hk | split; auto].
  - destruct P as ((o & E & _) & Hk & _). eapply no_masks_with; eauto. apply plain_BuildSubSet; [exact Hk | eauto].
  - destruct P as ((o & E & _) & Hk & _). eapply no_masks_with; eauto. unfold RebuildSubSet. apply always_bind.
    eapply always_cons; [apply plain_ReleaseSubset; eauto | ]. intros o1 F1. now apply plain_BuildSubSet.
  - destruct P as (o & E & _). eapply no_masks_with; eauto. apply plain_ReleaseSubset. eauto.
  - destruct P as (o & E & _). eapply no_masks_with; eauto. apply plain_in_sub. eauto.
  - destruct P as (o & E & _). eapply no_masks_with; eauto. apply plain_in_sub. eauto.
  - destruct P as (o & E & _). eapply no_masks_with; eauto. apply plain_CalculateStatistics. eauto.
  - destruct P as (o & E & _). eapply no_masks_with; eauto. apply plain_UpdateStatistics. eauto.
  - destruct P as (o & E & _). rewrite E in R. eapply no_masks_add; eauto. unfold CopyCtor. apply plain_Copy; [apply target_blank | exact (N j o E) | discriminate].
  - destruct P as (D & o & E & s & Es & A & B). destruct (Nat.eqb_spec i j); [congruence | ]. rewrite Es in R.
    eapply (no_masks_with w i o (fun o => Copy o s) w' N E); [ | exact R]. destruct (s_ok _ _ S i o E) as (K & KU). apply plain_Copy; [ | exact (N j s Es) | exact A].
    apply target_ok; [exact K | ]. apply KU. now apply (N i).
  - destruct P as (o & E & _). rewrite E in R. destruct (Destroy o (w_heap w)) as [(u, h') | | ]; try discriminate. cbn in R. injection R as <-.
    intros k q. cbn [w_objs]. rewrite objof_drop by exact (s_ids _ _ S). destruct (Nat.eqb k i); [discriminate | apply N].
Qed.

Theorem plain_run_orderly cs : forall w, orderly w -> no_masks w -> plain_run w cs -> exists w', run w cs = Ok w' /\ orderly w' /\ no_masks w'.
Proof.
  induction cs as [ | c t IH]; intros w W N C; cbn [run plain_run] in *.
  - eauto.
  - destruct C as (C1 & C2). destruct (careful_step w c W (plain_careful w c W N C1)) as (w' & E & W'). rewrite E. cbn. apply IH; auto.
    now apply (plain_step w c).
Qed.
