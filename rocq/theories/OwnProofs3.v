(** Copies. *)
From Coq Require Import List Bool Arith Lia Permutation.
From Verif Require Import Base OwnModel OwnSpec OwnProofs OwnProofs2.
Import ListNotations.

(** A target of Copy. *)
Record target (o : obj) : Prop := mkTarget {
  t_d1 : is2d o = true -> d1 o = None; t_d2 : is2d o = false -> d2 o = None;
  t_cells : d2 o <> None -> 1 <= ncells o;
  t_stats : is2d o && scalc o = false -> forall l, stats o = Some l -> Forall (eq None) l;
  t_own : own_positions o }.

Lemma target_ok o : obj_ok o -> own_positions o -> target o.
Proof. intros [] H. constructor; auto. Qed.
Lemma target_blank : target (blank false).
Proof.
  constructor; cbn; try discriminate; try reflexivity.
  - congruence.
  - intros _ l E. injection E as <-. repeat constructor.
  - right. split; reflexivity.
Qed.

Lemma safe_Copy o src F :
  target o -> obj_ok src -> un src -> copyable src -> (is2d o = true -> is2d src = true) ->
  (scalc src = true -> is2d src = true -> scalc o = false /\ stats o <> None) ->
  incl (held_obj src) F -> seen src F ->
  safe (Copy o src) (held_obj o ++ F) (fun o' L' => Permutation L' (held_obj o' ++ F) /\ obj_ok o' /\ un o'
    /\ omask o' = omask src /\ own_positions o').
Proof.
  intros T K KU (V & CP) TT SS I S. unfold Copy.
  set (R2 := (if store o then held (pos o) (ncells o) ++ held (idx o) (ncells o) else []) ++ held_stats (stats o) (nlyrs o) ++ flat_map held_sub (subs o)).
  (* data *)
  set (c2 := is2d o && negb (null (d2 o)) && (0 <? ncells o)).
  assert (N2 : (if c2 then None else d2 o) = None).
  { unfold c2. destruct (is2d o) eqn:E; cbn [andb]; [ | now apply (t_d2 o T)].
    destruct (d2 o) as [b | ] eqn:D; cbn [null negb andb]; [ | now destruct (0 <? ncells o)].
    assert (1 <= ncells o) by (apply (t_cells o T); congruence). destruct (Nat.ltb_spec 0 (ncells o)); [reflexivity | lia]. }
  rewrite N2. clear N2.
  assert (N1 : (if is2d o then d1 o else None) = None).
  { destruct (is2d o) eqn:E; [now apply (t_d1 o T) | reflexivity]. }
  rewrite N1. clear N1.
  eapply safe_let with (P := fun _ L' => Permutation L' (held (d1 o) (ncells o) ++ R2 ++ F)).
  { unfold c2. destruct (is2d o) eqn:E; cbn [andb].
    - destruct (d2 o) as [b | ] eqn:D; cbn [null negb andb].
      + assert (1 <= ncells o) by (apply (t_cells o T); congruence). destruct (Nat.ltb_spec 0 (ncells o)); [ | lia].
        eapply (safe_release2 _ (ncells o)); [ | reflexivity]. unfold held_obj, R2. rewrite D. psolve.
      + apply safe_ret. unfold held_obj, R2. rewrite D. cbn [held]. psolve.
    - apply safe_ret. unfold held_obj, R2. rewrite (t_d2 o T E). cbn [held]. psolve. }
  cbn beta. intros _ L1 P1.
  eapply safe_let with (P := fun _ L' => Permutation L' (R2 ++ F)).
  { destruct (is2d o) eqn:E.
    - apply safe_ret. rewrite (t_d1 o T E) in P1. exact P1.
    - eapply (safe_release1 _ (ncells o)); [exact P1 | reflexivity]. }
  cbn beta. clear L1 P1. intros _ L1 P1.
  set (R3 := held_stats (stats o) (nlyrs o) ++ flat_map held_sub (subs o)).
  eapply safe_let with (P := fun _ L' => Permutation L' (held (idx o) (ncells o) ++ R3 ++ F)).
  { destruct (t_own o T) as [E | (E1 & E2)].
    - unfold R2 in P1. rewrite E in P1. eapply (safe_release2 _ (ncells o)); [ | reflexivity]. unfold R3. psolve.
    - rewrite E1. cbn [release2]. apply safe_ret. unfold R2 in P1. rewrite E1, E2 in *. cbn [held app] in *. unfold R3.
      destruct (store o); psolve. }
  cbn beta. clear L1 P1. intros _ L1 P1.
  eapply safe_let with (P := fun _ L' => Permutation L' (R3 ++ F)).
  { eapply (safe_release1 _ (ncells o)); [exact P1 | reflexivity]. }
  cbn beta. clear L1 P1. intros _ L1 P1.
  eapply safe_let with (P := fun o1 L' => Permutation L' (flat_map held_sub (subs o) ++ F) /\ subs o1 = subs o /\ store o1 = store o
     /\ stats o1 = (if scalc o then None else stats o)).
  { destruct (scalc o) eqn:SC.
    - unfold ReleaseStats. eapply safe_let with (P := fun (_ : list unit) L' => Permutation L' (flat_map held_sub (subs o) ++ F)).
      + unfold R3 in P1. destruct (stats o) as [l | ].
        * eapply safe_cons.
          -- eapply safe_perm; [ | apply (safe_mapM release1 (fun p => held p (nlyrs o)) (fun _ => []) (fun _ => True) [] l) with (F := flat_map held_sub (subs o) ++ F)].
             ++ cbn [held_stats] in P1. psolve.
             ++ intros a G _ _. eapply safe_release1; [reflexivity | ]. split; [reflexivity | exact Logic.I].
             ++ intros y [].
          -- cbn beta. intros bs L' (P & _). rewrite flat_map_nil in P. exact P.
        * cbn [mapM]. apply safe_ret. exact P1.
      + intros _ L' P. apply safe_ret. auto.
    - apply safe_ret. split; [ | auto]. unfold R3 in P1.
      rewrite (no_stats (stats o)) in P1 by (apply (t_stats o T); now rewrite SC, andb_false_r). exact P1. }
  cbn beta. clear L1 P1. intros o1 L1 (P1 & ES & ET & EST).
  eapply safe_let with (P := fun o2 L' => Permutation L' F /\ store o2 = store o /\ stats o2 = (if scalc o then None else stats o)).
  { unfold ReleaseSubset. eapply safe_let with (P := fun (_ : list unit) L' => Permutation L' F).
    - rewrite ES. eapply safe_cons.
      + eapply safe_perm; [exact P1 | apply (safe_mapM DestroySub held_sub (fun _ => []) (fun _ => True) [] (subs o))].
        * intros a G _ _. apply safe_DestroySub. split; [reflexivity | exact Logic.I].
        * intros y [].
      + cbn beta. intros bs L' (P & _). rewrite flat_map_nil in P. exact P.
    - intros _ L' P. apply safe_ret. auto. }
  cbn beta. clear o1 L1 P1 ES ET EST. intros o2 L1 (P1 & ET & EST).
  assert (E2 : is2d o || is2d src = is2d src) by (destruct (is2d o); cbn; auto; symmetry; auto).
  rewrite E2. clear E2. cbn zeta.
  assert (Hn := k_cells src K).
  assert (I0 : incl F L1) by (intros y Hy; eapply Permutation_in; [symmetry; exact P1 | exact Hy]).
  (* data *)
  eapply safe_let with (P := fun d L' => Permutation L' (held (fst d) (ncells src) ++ held (snd d) (ncells src) ++ F)
     /\ (is2d src = true -> fst d = None) /\ (is2d src = false -> snd d = None)).
  { unfold held_obj in I. destruct (valid_data src K V) as [(E & D) | (E & D)]; rewrite E.
    - apply safe_bind. apply safe_init2_from; auto.
      + intros y Hy. apply I0, I. rewrite !in_app_iff. tauto.
      + intro b. apply safe_ret. cbn [fst snd held]. split; [psolve | split; congruence].
    - apply safe_bind. apply safe_init1_from; auto.
      + intros y Hy. apply I0, I. rewrite !in_app_iff. tauto.
      + intro b. apply safe_ret. cbn [fst snd held]. split; [psolve | split; congruence]. }
  cbn beta. clear L1 P1 I0. intros (a, e) L1 (P1 & D1 & D2). cbn [fst snd] in *.
  assert (I0 : incl F L1) by (intros y Hy; eapply Permutation_in; [symmetry; exact P1 | rewrite !in_app_iff; tauto]).
  eapply safe_let with (P := fun p L' => Permutation L' (held p (ncells src) ++ L1) /\ null p = negb (calc src)).
  { destruct (calc src) eqn:C.
    - destruct (CP eq_refl) as (NP & NI). apply safe_init2_from; auto.
      + intros y Hy. apply I0, S. rewrite in_app_iff. tauto.
    - apply safe_ret. split; reflexivity. }
  cbn beta. intros p L2 (P2 & Np).
  assert (I2 : incl F L2) by (intros y Hy; eapply Permutation_in; [symmetry; exact P2 | rewrite in_app_iff; right; auto]).
  eapply safe_let with (P := fun i L' => Permutation L' (held i (ncells src) ++ L2) /\ null i = negb (calc src)).
  { destruct (calc src) eqn:C.
    - destruct (CP eq_refl) as (NP & NI). apply safe_init1_from; auto.
      + intros y Hy. apply I2, S. rewrite in_app_iff. tauto.
    - apply safe_ret. split; reflexivity. }
  cbn beta. intros i L3 (P3 & Ni).
  assert (I3 : incl F L3) by (intros y Hy; eapply Permutation_in; [symmetry; exact P3 | rewrite in_app_iff; right; auto]).
  (* statistics *)
  eapply safe_let with (P := fun st L' => Permutation L' (held_stats st (nlyrs src) ++ L3)
     /\ (is2d src && scalc src = false -> forall l, st = Some l -> Forall (eq None) l)).
  { assert (NO : scalc src && is2d src = false \/ stats src = None -> forall l, stats o2 = Some l -> Forall (eq None) l).
    { intros _ l El. rewrite EST in El. destruct (scalc o) eqn:SC; [discriminate | ].
      apply (t_stats o T); [now rewrite SC, andb_false_r | exact El]. }
    destruct (scalc src && is2d src) eqn:E.
    - destruct (stats src) as [l | ] eqn:EL.
      + apply andb_prop in E. destruct E as (E1 & E2). destruct (SS E1 E2) as (X & Y).
        rewrite X in EST. destruct (stats o2) as [l2 | ]; [ | congruence].
        eapply safe_let with (P := fun bs L' => Permutation L' (flat_map (fun q => held q (nlyrs src)) bs ++ L3)).
        * eapply safe_cons.
          -- eapply safe_perm; [ | apply (safe_mapM (fun q => init1_from (nlyrs src) None q) (fun _ => []) (fun q => held q (nlyrs src)) (fun _ => True) (held_obj src) l) with (F := L3)].
             ++ rewrite flat_map_nil. reflexivity.
             ++ intros q G In_ KG. cbn [app]. apply safe_init1_from; [exact (k_lyrs src K) | | ].
                ** intros y Hy. apply KG. unfold held_obj. rewrite EL. cbn [held_stats]. rewrite !in_app_iff. do 3 right. left.
                   apply in_flat_map. exists q. auto.
                ** intro b. split; [reflexivity | exact Logic.I].
             ++ intros y Hy. apply I3, I, Hy.
          -- cbn beta. intros bs L' (P & _). exact P.
        * cbn beta. intros bs L' P. apply safe_ret. split; [exact P | ]. rewrite E1, E2. discriminate.
      + apply safe_ret. rewrite (no_stats (stats o2)) by (apply NO; auto). split; [reflexivity | auto].
    - apply safe_ret. rewrite (no_stats (stats o2)) by (apply NO; auto). split; [reflexivity | auto]. }
  cbn beta. intros st L4 (P4 & NS).
  assert (I4 : incl F L4) by (intros y Hy; eapply Permutation_in; [symmetry; exact P4 | rewrite in_app_iff; right; auto]).
  (* subsets *)
  eapply safe_let.
  { eapply safe_perm; [ | apply (safe_mapM (CopySub true) (fun _ => []) held_sub sub_ok (held_obj src) (subs src)) with (F := L4)].
    - rewrite flat_map_nil. reflexivity.
    - intros u G In_ KG. cbn [app]. eapply safe_cons.
      + apply safe_CopySub.
        * pose proof (k_subs src K) as Fa. rewrite Forall_forall in Fa. auto.
        * intros y Hy. apply KG. rewrite held_bare, in_app_iff. right. apply in_flat_map. exists u. auto.
      + cbn beta. intros v L' (P & Ok_ & _). split; assumption.
    - intros y Hy. apply I4, I, Hy. }
  cbn beta. intros us L5 (P5 & Us). apply safe_ret.
  assert (OW : (if calc src then true else store o2) = true \/ (p = None /\ i = None)).
  { destruct (calc src); [now left | right]. split; apply null_none; assumption. }
  split.
  { hcbn. destruct OW as [-> | (-> & ->)].
    - psolve.
    - cbn [held app] in *. destruct (if calc src then true else store o2); psolve. }
  split.
  { constructor; cbn; auto.
    - exact (k_lyrs src K).
    - now rewrite Np, Ni. }
  split.
  { intro U. cbn in U. cbn. split; [exact OW | ]. destruct (KU U) as (_ & [(C & NP) | (C & NP & G)]).
    - left. split; [exact C | ]. apply null_not. rewrite Np, C. reflexivity.
    - right. split; [exact C | ]. split; [ | exact G]. apply null_none. rewrite Np, C. reflexivity. }
  split; [reflexivity | exact OW].
Qed.
