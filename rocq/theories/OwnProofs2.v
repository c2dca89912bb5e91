(** What the functions on one raster need and leave. *)
From Coq Require Import List Bool Arith Lia Permutation.
From Verif Require Import Base OwnModel OwnSpec OwnProofs.
Import ListNotations.

Record obj_ok (o : obj) : Prop := mkOk {
  k_cells : 1 <= ncells o; k_lyrs : 1 <= nlyrs o;
  k_d1 : is2d o = true -> d1 o = None; k_d2 : is2d o = false -> d2 o = None;
  k_pi : null (pos o) = null (idx o);
  k_stats : is2d o && scalc o = false -> forall l, stats o = Some l -> Forall (eq None) l;
  k_subs : Forall sub_ok (subs o) }.
(** The state of rasters without a mask. *)
Definition un (o : obj) : Prop :=
  omask o = None -> own_positions o /\
  ((calc o = true /\ pos o <> None) \/ (calc o = false /\ pos o = None /\ ncells o = grid o)).

Definition seen (o : obj) (L : list blk) : Prop := incl (held (pos o) (ncells o) ++ held (idx o) (ncells o)) L.

Lemma null_some {A} (p : option A) : p <> None -> null p = false.
Proof. destruct p; cbn; congruence. Qed.
Lemma null_none {A} (p : option A) : null p = true -> p = None.
Proof. destruct p; cbn; congruence. Qed.
Lemma null_not {A} (p : option A) : null p = false -> p <> None.
Proof. destruct p; cbn; congruence. Qed.

Lemma no_stats st n : (forall l, st = Some l -> Forall (eq None) l) -> held_stats st n = [].
Proof.
  destruct st as [l | ]; [ | reflexivity]. intro H. specialize (H l eq_refl). cbn.
  induction H as [ | p t E _ IH]; [reflexivity | ]. subst p. exact IH.
Qed.

Lemma idx_none o : obj_ok o -> pos o = None -> idx o = None.
Proof. intros K E. apply null_none. rewrite <- (k_pi o K), E. reflexivity. Qed.
Lemma idx_some o : obj_ok o -> pos o <> None -> idx o <> None.
Proof. intros K E. apply null_not. rewrite <- (k_pi o K). now apply null_some. Qed.

Ltac hcbn := unfold held_obj; cbn [d1 d2 pos idx calc store is2d scalc ncells nlyrs grid stats subs omask ext
  set_data set_places set_statistics set_subs set_mask set_grid set_ext fst snd held].
Ltac hcbn_in H := unfold held_obj in H; cbn [d1 d2 pos idx calc store is2d scalc ncells nlyrs grid stats subs omask ext
  set_data set_places set_statistics set_subs set_mask set_grid set_ext fst snd held] in H.

Lemma valid_data o : obj_ok o -> valid o = true -> (is2d o = true /\ d2 o <> None) \/ (is2d o = false /\ d1 o <> None).
Proof.
  intros K V. unfold valid in V. destruct (is2d o); cbn in V; [left | right]; split; auto.
  - destruct (d2 o); cbn in V; congruence.
  - destruct (d1 o); cbn in V; congruence.
Qed.

Lemma safe_read n o L (Q : unit -> list blk -> Prop) :
  obj_ok o -> valid o = true -> incl (held_obj o) L -> n <= ncells o -> Q tt L -> safe (read_data n o) L Q.
Proof.
  intros K V I N HQ. unfold read_data. unfold held_obj in I.
  destruct (valid_data o K V) as [(-> & D) | (-> & D)]; apply (safe_touch _ _ (ncells o)); auto; isolve.
Qed.

Lemma safe_Access o L (Q : unit -> list blk -> Prop) :
  obj_ok o -> readable o -> incl (held_obj o) L -> seen o L -> Q tt L -> safe (Access o) L Q.
Proof.
  intros K R I S HQ. unfold Access. destruct (valid o) eqn:V; cbn [negb]; [ | now apply safe_ret].
  destruct (calc o && negb (null (pos o)) && negb (null (idx o))) eqn:E.
  - apply andb_prop in E. destruct E as (E & E3). apply safe_bind.
    apply (safe_touch _ _ (ncells o)); auto.
    + apply negb_true_iff in E3. now apply null_not.
    + unfold seen in S. isolve.
    + apply safe_read; auto.
  - apply safe_read; auto. destruct R as [(C & P & X) | R]; [ | lia].
    exfalso. rewrite C, (null_some _ P), (null_some _ X) in E. discriminate.
Qed.

(** What stays when positions are computed. *)
Definition kept (o o' : obj) : Prop :=
  is2d o' = is2d o /\ scalc o' = scalc o /\ nlyrs o' = nlyrs o /\ grid o' = grid o /\ stats o' = stats o
  /\ subs o' = subs o /\ omask o' = omask o /\ ext o' = ext o /\ valid o' = valid o.
Lemma kept_refl o : kept o o.
Proof. repeat split. Qed.

Lemma safe_CalculateValid k o F :
  obj_ok o -> pos o = None -> valid o = true -> ncells o = grid o -> 1 <= k ->
  safe (CalculateValid k o) (held_obj o ++ F) (fun o' L' => Permutation L' (held_obj o' ++ F) /\ obj_ok o' /\ kept o o'
    /\ calc o' = true /\ store o' = true /\ pos o' <> None /\ idx o' <> None /\ ncells o' = k).
Proof.
  intros K EP V G Hk. assert (EI := idx_none o K EP). unfold CalculateValid. rewrite EP, EI.
  apply safe_bind. apply safe_read; auto; [isolve | lia | ].
  eapply safe_let with (P := fun d L' => Permutation L' (held (fst d) k ++ held (snd d) k ++ held_stats (stats o) (nlyrs o) ++ flat_map held_sub (subs o) ++ F)
    /\ (is2d o = true -> fst d = None /\ snd d <> None) /\ (is2d o = false -> snd d = None /\ fst d <> None)).
  { unfold held_obj. rewrite EP, EI. cbn [held app].
    destruct (valid_data o K V) as [(E & D) | (E & D)]; rewrite E.
    - rewrite (k_d1 o K E). cbn [held app]. apply safe_bind.
      apply (safe_release2 _ (ncells o) _ (held_stats (stats o) (nlyrs o) ++ flat_map held_sub (subs o) ++ F)).
      { destruct (store o); rewrite <- ?app_assoc; reflexivity. }
      apply safe_bind. apply safe_init2; [exact Hk | ]. intro b. apply safe_ret. cbn [fst snd held]. split; [reflexivity | ].
      split; [split; congruence | discriminate].
    - rewrite (k_d2 o K E). cbn [held app]. apply safe_bind.
      apply (safe_release1 _ (ncells o) _ (held_stats (stats o) (nlyrs o) ++ flat_map held_sub (subs o) ++ F)).
      { destruct (store o); rewrite <- ?app_assoc; reflexivity. }
      apply safe_bind. apply safe_init1; [exact Hk | ]. intro b. apply safe_ret. cbn [fst snd held]. split; [reflexivity | ].
      split; [discriminate | split; congruence]. }
  cbn beta. intros (a, e) L1 (P1 & D1 & D2). cbn [fst snd] in *.
  apply safe_bind. apply safe_init2; [exact Hk | ]. intro p.
  apply safe_bind. apply safe_init1; [exact Hk | ]. intro i. cbn zeta.
  set (o' := set_places _ _ _ _ _ _).
  assert (V' : valid o' = true).
  { unfold o', valid. cbn. destruct (is2d o); cbn.
    - destruct D1 as (_ & D); auto. rewrite (null_some _ D). reflexivity.
    - destruct D2 as (_ & D); auto. rewrite (null_some _ D). reflexivity. }
  assert (K' : obj_ok o').
  { destruct K. unfold o'. constructor; cbn; auto.
    - intro E. now apply D1.
    - intro E. now apply D2. }
  assert (P' : Permutation ((i, k) :: (p, k) :: L1) (held_obj o' ++ F)).
  { unfold o'. hcbn. psolve. }
  destruct k as [ | k']; [lia | ].
  apply safe_bind. apply safe_read; auto.
  { intros y Hy. eapply Permutation_in; [symmetry; exact P' | ]. apply in_or_app. now left. }
  apply safe_bind. apply (safe_touch _ _ (S k')); [congruence | cbn [held]; isolve | lia | ].
  apply safe_bind. apply (safe_touch _ _ (S k')); [congruence | cbn [held]; isolve | lia | ].
  apply safe_ret. split; [exact P' | ]. split; [exact K' | ]. split.
  { unfold kept. rewrite V, V'. unfold o'. cbn. repeat split. }
  unfold o'. cbn. repeat split; congruence.
Qed.

Lemma safe_SetCalcPositions k o F :
  obj_ok o -> un o -> omask o = None -> 1 <= k ->
  safe (SetCalcPositions k o) (held_obj o ++ F) (fun o' L' => Permutation L' (held_obj o' ++ F) /\ obj_ok o' /\ un o' /\ kept o o'
    /\ (pos o <> None -> o' = o) /\ (valid o = true -> pos o' <> None /\ idx o' <> None /\ calc o' = true)).
Proof.
  intros K KU U Hk. unfold SetCalcPositions.
  destruct (valid o) eqn:V; cbn [negb].
  2: { apply safe_ret. split; [reflexivity | ]. split; [exact K | ]. split; [exact KU | ]. split; [apply kept_refl | ]. split; [reflexivity | discriminate]. }
  destruct (KU U) as (Ow & [(C & P) | (C & P & G)]).
  - rewrite C, (null_some _ P). cbn. apply safe_ret. split; [reflexivity | ]. split; [exact K | ]. split; [exact KU | ]. split; [apply kept_refl | ].
    split; [reflexivity | ]. intros _. split; [exact P | ]. split; [now apply idx_some | exact C].
  - rewrite C, P. cbn [andb null orb].
    eapply safe_cons.
    + eapply safe_perm; [ | apply (safe_CalculateValid k (set_places o None (idx o) true (store o) (ncells o)) F)]; auto.
      * unfold held_obj. cbn. rewrite P. reflexivity.
      * assert (EI := idx_none o K P). destruct K. constructor; cbn; auto. now rewrite EI.
    + cbn beta. intros o' L' (P' & K' & Kp & C' & S' & NP & NI & _). split; [exact P' | ]. split; [exact K' | ]. split.
      { intros _. split; [now left | ]. left. now split. }
      split; [exact Kp | ]. split; [congruence | auto].
Qed.

Lemma safe_GetPositions k o F :
  obj_ok o -> un o -> omask o = None -> valid o = true -> 1 <= k ->
  safe (GetPositions k o) (held_obj o ++ F) (fun o' L' => Permutation L' (held_obj o' ++ F) /\ obj_ok o' /\ un o' /\ kept o o'
    /\ (pos o <> None -> o' = o) /\ pos o' <> None /\ idx o' <> None).
Proof.
  intros K KU U V Hk. unfold GetPositions.
  destruct (KU U) as (Ow & [(C & P) | (C & P & G)]).
  - rewrite (null_some _ P). cbn [negb]. apply safe_bind, safe_ret.
    assert (I := idx_some o K P). rewrite (null_some _ I). cbn [negb]. apply safe_ret.
    split; [reflexivity | ]. split; [exact K | ]. split; [exact KU | ]. split; [apply kept_refl | auto].
  - rewrite P at 1. cbn [null negb]. rewrite V. cbn [negb].
    eapply safe_let. { apply safe_CalculateValid; auto. }
    cbn beta. intros o' L' (P' & K' & Kp & C' & S' & NP & NI & _). rewrite (null_some _ NI). cbn [negb]. apply safe_ret.
    split; [exact P' | ]. split; [exact K' | ]. split.
    { intros _. split; [now left | ]. left. now split. }
    split; [exact Kp | ]. split; [congruence | auto].
Qed.

(** Subsets *)
Lemma held_subs o us F : held_obj (set_subs o us) ++ F = (held (d1 o) (ncells o) ++ held (d2 o) (ncells o)
    ++ (if store o then held (pos o) (ncells o) ++ held (idx o) (ncells o) else []) ++ held_stats (stats o) (nlyrs o)) ++ flat_map held_sub us ++ F.
Proof. hcbn. rewrite <- !app_assoc. reflexivity. Qed.

Definition bare (o : obj) : list blk := held (d1 o) (ncells o) ++ held (d2 o) (ncells o)
    ++ (if store o then held (pos o) (ncells o) ++ held (idx o) (ncells o) else []) ++ held_stats (stats o) (nlyrs o).
Lemma held_bare o : held_obj o = bare o ++ flat_map held_sub (subs o).
Proof. unfold held_obj, bare. rewrite <- !app_assoc. reflexivity. Qed.

Lemma obj_ok_subs o us : obj_ok o -> Forall sub_ok us -> obj_ok (set_subs o us).
Proof. intros [] H. constructor; cbn; auto. Qed.

Lemma flat_map_nil {A B} (l : list A) : flat_map (fun _ => @nil B) l = [].
Proof. induction l; cbn; auto. Qed.

Lemma safe_ReleaseSubset o F (Q : obj -> list blk -> Prop) :
  (forall L', Permutation L' (held_obj (set_subs o []) ++ F) -> Q (set_subs o []) L') -> safe (ReleaseSubset o) (held_obj o ++ F) Q.
Proof.
  intro HQ. unfold ReleaseSubset.
  eapply safe_let.
  { eapply safe_perm; [ | apply (safe_mapM DestroySub held_sub (fun _ => []) (fun _ => True) [] (subs o)) with (F := bare o ++ F)].
    - rewrite held_bare. psolve.
    - intros a G _ _. apply safe_DestroySub. split; [reflexivity | exact I].
    - intros y []. }
  cbn beta. intros bs L' (P & _). rewrite flat_map_nil in P. apply safe_ret. apply HQ.
  rewrite held_subs. fold (bare o). cbn [flat_map]. psolve.
Qed.

Lemma safe_BuildSubSet k ns o F :
  obj_ok o -> un o -> (omask o = None \/ pos o <> None) -> seen o (held_obj o ++ F) -> 1 <= k -> Forall (fun n => 1 <= n) ns ->
  safe (BuildSubSet k ns o) (held_obj o ++ F) (fun o' L' => Permutation L' (held_obj o' ++ F) /\ obj_ok o' /\ un o'
    /\ omask o' = omask o /\ (pos o <> None -> pos o' = pos o /\ idx o' = idx o /\ ncells o' = ncells o /\ store o' = store o)).
Proof.
  intros K KU W S Hk Hn. unfold BuildSubSet. destruct (valid o) eqn:V; cbn [negb].
  2: { apply safe_ret. repeat (split; [reflexivity || assumption | ]). auto. }
  eapply safe_let with (P := fun o' L' => Permutation L' (held_obj o' ++ F) /\ obj_ok o' /\ un o' /\ kept o o'
    /\ (pos o <> None -> o' = o) /\ pos o' <> None /\ idx o' <> None /\ seen o' L').
  { destruct (pos o) as [p | ] eqn:EP.
    - assert (NI : idx o <> None) by (apply idx_some; auto; congruence). rewrite (null_some _ NI). cbn [null orb]. apply safe_ret.
      split; [reflexivity | ]. split; [exact K | ]. split; [exact KU | ]. split; [apply kept_refl | ].
      split; [reflexivity | ]. split; [congruence | ]. split; [exact NI | exact S].
    - cbn [null orb]. destruct W as [U | W]; [ | congruence].
      eapply safe_cons; [apply safe_SetCalcPositions; auto | ]. cbn beta.
      intros o' L' (P' & K' & KU' & Kp & _ & Y). destruct (Y V) as (NP & NI & C).
      split; [exact P' | ]. split; [exact K' | ]. split; [exact KU' | ]. split; [exact Kp | ].
      split; [congruence | ]. split; [exact NP | ]. split; [exact NI | ].
      assert (St : store o' = true).
      { destruct (KU' ltac:(destruct Kp as (_&_&_&_&_&_&E&_); congruence)) as ([St | (E & _)] & _); congruence. }
      intros y Hy. eapply Permutation_in; [symmetry; exact P' | ]. unfold held_obj. rewrite St.
      repeat rewrite in_app_iff in *. tauto. }
  cbn beta. intros o1 L1 (P1 & K1 & KU1 & Kp & Same & NP & NI & S1).
  assert (E : omask o1 = omask o) by (destruct Kp as (_&_&_&_&_&_&E&_); exact E).
  assert (T : pos o <> None -> pos o1 = pos o /\ idx o1 = idx o /\ ncells o1 = ncells o /\ store o1 = store o).
  { intro N. rewrite (Same N). auto. }
  destruct (subs o1) as [ | u us] eqn:ES.
  2: { apply safe_ret. repeat (split; [assumption | ]). assumption. }
  assert (V1 : valid o1 = true) by (destruct Kp as (_&_&_&_&_&_&_&_&E1); congruence).
  apply safe_bind. apply safe_read; auto.
  { intros y Hy. eapply Permutation_in; [symmetry; exact P1 | ]. apply in_or_app. now left. }
  apply safe_bind. apply (safe_touch _ _ (ncells o1)); auto.
  { unfold seen in S1. isolve. }
  eapply safe_let.
  { eapply safe_perm; [ | apply (safe_mapM BuildSub (fun _ => []) held_sub sub_ok [] ns) with (F := bare o1 ++ F)].
    - rewrite flat_map_nil. rewrite held_bare, ES in P1. cbn [flat_map] in P1. rewrite app_nil_r in P1. exact P1.
    - intros n G In_ _. cbn [app]. apply safe_BuildSub. rewrite Forall_forall in Hn. auto.
    - intros y []. }
  cbn beta. intros us L' (P & Ok_). apply safe_ret. split.
  { rewrite held_subs. fold (bare o1). psolve. }
  split; [now apply obj_ok_subs | ]. split; [exact KU1 | ]. split; [exact E | exact T].
Qed.

(** Statistics *)
Definition bare2 (o : obj) : list blk := held (d1 o) (ncells o) ++ held (d2 o) (ncells o)
    ++ (if store o then held (pos o) (ncells o) ++ held (idx o) (ncells o) else []) ++ flat_map held_sub (subs o).
Lemma held_bare2 o : Permutation (held_obj o) (held_stats (stats o) (nlyrs o) ++ bare2 o).
Proof. unfold held_obj, bare2. psolve. Qed.

Lemma safe_ReleaseStats o F (Q : obj -> list blk -> Prop) :
  (forall L', Permutation L' (bare2 o ++ F) -> Q (set_statistics o None (scalc o)) L') -> safe (ReleaseStats o) (held_obj o ++ F) Q.
Proof.
  intro HQ. unfold ReleaseStats. assert (B := held_bare2 o).
  eapply safe_let with (P := fun (_ : list unit) L' => Permutation L' (bare2 o ++ F)).
  - destruct (stats o) as [l | ].
    + eapply safe_cons.
      * eapply safe_perm; [ | apply (safe_mapM release1 (fun p => held p (nlyrs o)) (fun _ => []) (fun _ => True) [] l) with (F := bare2 o ++ F)].
        -- cbn [held_stats] in B. psolve.
        -- intros a G _ _. eapply safe_release1; [reflexivity | ]. split; [reflexivity | exact I].
        -- intros y [].
      * cbn beta. intros bs L' (P & _). rewrite flat_map_nil in P. exact P.
    + cbn [mapM]. apply safe_ret. cbn [held_stats app] in B. psolve.
  - cbn beta. intros bs L' P. apply safe_ret. now apply HQ.
Qed.

Lemma safe_news {A} n (l : list A) F : 1 <= n ->
  safe (mapM (fun _ => new n) l) F (fun bs L' => Permutation L' (flat_map (fun b => [(b, n)]) bs ++ F)).
Proof.
  intro H. eapply safe_cons.
  - eapply safe_perm; [ | apply (safe_mapM (fun _ : A => new n) (fun _ => []) (fun b => [(b, n)]) (fun _ => True) [] l) with (F := F)].
    + rewrite flat_map_nil. reflexivity.
    + intros a G _ _. apply safe_new; [exact H | ]. intro b. split; [reflexivity | exact I].
    + intros y [].
  - cbn beta. intros bs L' (P & _). exact P.
Qed.

Definition same_but_stats (o o' : obj) : Prop := exists st c, o' = set_statistics o st c.

Lemma held_somes n bs : flat_map (fun p => held p n) (map Some bs) = flat_map (fun b => [(b, n)]) bs.
Proof. induction bs; cbn; congruence. Qed.

Lemma safe_CalculateStatistics o F :
  obj_ok o -> valid o = true -> safe (CalculateStatistics o) (held_obj o ++ F) (fun o' L' =>
    Permutation L' (held_obj o' ++ F) /\ obj_ok o' /\ same_but_stats o o').
Proof.
  intros K V. unfold CalculateStatistics. destruct (scalc o) eqn:SC.
  { apply safe_ret. split; [reflexivity | ]. split; [exact K | ]. exists (stats o), (scalc o). destruct o; reflexivity. }
  assert (B := held_bare2 o). rewrite (no_stats (stats o)) in B by (apply (k_stats o K); rewrite SC; now rewrite andb_false_r).
  destruct (valid_data o K V) as [(E & D) | (E & D)]; rewrite E.
  - rewrite (null_some _ D). cbn [negb andb]. apply safe_bind. apply (safe_touch _ _ (ncells o)); auto. { unfold held_obj. isolve. }
    eapply safe_let. { apply safe_news. exact (k_lyrs o K). }
    cbn beta. intros bs L' P. apply safe_ret. split.
    + assert (B2 := held_bare2 (set_statistics o (Some (map Some bs)) true)). cbn [set_statistics stats nlyrs held_stats] in B2.
      rewrite held_somes in B2. change (bare2 (set_statistics o (Some (map Some bs)) true)) with (bare2 o) in B2. psolve.
    + split; [ | eexists; eexists; reflexivity]. destruct K. constructor; cbn; auto. rewrite E. discriminate.
  - cbn [andb]. apply safe_bind. apply (safe_touch _ _ (ncells o)); auto. { unfold held_obj. isolve. }
    apply safe_ret.
    assert (NS : forall l, Some (match stats o with Some l => l | None => repeat None 6 end) = Some l -> Forall (eq None) l).
    { intros l El. injection El as <-. destruct (stats o) as [l | ] eqn:ES.
      - apply (k_stats o K); [now rewrite SC, andb_false_r | exact ES].
      - repeat constructor. }
    split.
    + set (st := Some _). assert (B2 := held_bare2 (set_statistics o st true)). cbn [set_statistics stats nlyrs] in B2.
      rewrite (no_stats st) in B2 by exact NS. change (bare2 (set_statistics o st true)) with (bare2 o) in B2. psolve.
    + split; [ | eexists; eexists; reflexivity]. destruct K. constructor; cbn; auto.
Qed.

Lemma safe_UpdateStatistics o F :
  obj_ok o -> valid o = true -> safe (UpdateStatistics o) (held_obj o ++ F) (fun o' L' =>
    Permutation L' (held_obj o' ++ F) /\ obj_ok o' /\ same_but_stats o o').
Proof.
  intros K V. unfold UpdateStatistics.
  assert (B := held_bare2 o).
  eapply safe_let with (P := fun o1 L' => Permutation L' (bare2 o ++ F)
     /\ exists st, set_statistics o1 (stats o1) false = set_statistics o st false /\ forall l, st = Some l -> Forall (eq None) l).
  { destruct (is2d o && scalc o) eqn:E.
    - apply safe_ReleaseStats. intros L' P. split; [exact P | ]. exists None. split; [reflexivity | discriminate].
    - apply safe_ret. rewrite (no_stats (stats o)) in B by now apply (k_stats o K).
      split; [psolve | ]. exists (stats o). split; [reflexivity | now apply (k_stats o K)]. }
  cbn beta. intros o1 L1 (P & st & E & NS). rewrite E. set (o2 := set_statistics o st false).
  eapply safe_cons.
  - eapply safe_perm; [ | apply (safe_CalculateStatistics o2 F)].
    + assert (B2 := held_bare2 o2). unfold o2 in B2 at 2 3. cbn [set_statistics stats nlyrs] in B2. rewrite (no_stats st _ NS) in B2.
      change (bare2 o2) with (bare2 o) in B2. psolve.
    + destruct K. constructor; cbn; auto.
    + exact V.
  - cbn beta. intros o' L' (P' & K' & st' & c & E'). split; [exact P' | ]. split; [exact K' | ].
    exists st', c. exact E'.
Qed.

(** Destruction *)
Lemma safe_Destroy o F (Q : unit -> list blk -> Prop) :
  obj_ok o -> (forall L', Permutation L' F -> Q tt L') -> safe (Destroy o) (held_obj o ++ F) Q.
Proof.
  intros K HQ. unfold Destroy. unfold held_obj. rewrite <- !app_assoc.
  apply safe_bind. eapply (safe_release1 _ (ncells o)); [reflexivity | ].
  set (R := held (d2 o) (ncells o) ++ held_stats (stats o) (nlyrs o) ++ flat_map held_sub (subs o) ++ F).
  assert (X : safe (let! _ := (if is2d o then release2 (d2 o) else ret tt) in
     let! _ := (if is2d o && scalc o then ReleaseStats o else ret o) in let! _ := ReleaseSubset o in ret tt) R Q).
  { unfold R. apply safe_bind.
    assert (Y : safe (let! _ := (if is2d o && scalc o then ReleaseStats o else ret o) in let! _ := ReleaseSubset o in ret tt)
                (held_stats (stats o) (nlyrs o) ++ flat_map held_sub (subs o) ++ F) Q).
    { set (o0 := mkObj None None None None false false (is2d o) (scalc o) (ncells o) (nlyrs o) (grid o) (stats o) (subs o) None false).
      eapply safe_let with (P := fun _ L' => Permutation L' (flat_map held_sub (subs o) ++ F)).
      - destruct (is2d o && scalc o) eqn:E.
        + unfold ReleaseStats. eapply safe_let with (P := fun (_ : list unit) L' => Permutation L' (flat_map held_sub (subs o) ++ F)).
          * assert (Z := safe_ReleaseStats o0 F (fun _ L' => Permutation L' (flat_map held_sub (subs o) ++ F))).
            destruct (stats o) as [l | ].
            -- eapply safe_cons; [apply (safe_mapM release1 (fun p => held p (nlyrs o)) (fun _ => []) (fun _ => True) [] l) | ].
               ++ intros a G _ _. eapply safe_release1; [reflexivity | ]. split; [reflexivity | exact I].
               ++ intros y [].
               ++ cbn beta. intros bs L' (P & _). rewrite flat_map_nil in P. exact P.
            -- cbn [mapM]. apply safe_ret. reflexivity.
          * intros. now apply safe_ret.
        + apply safe_ret. rewrite (no_stats (stats o)) by now apply (k_stats o K). reflexivity.
      - cbn beta. intros _ L1 P1. unfold ReleaseSubset.
        eapply safe_let with (P := fun _ L' => Permutation L' F).
        + eapply safe_let with (P := fun (_ : list unit) L' => Permutation L' F).
          * eapply safe_cons.
            -- eapply safe_perm; [exact P1 | apply (safe_mapM DestroySub held_sub (fun _ => []) (fun _ => True) [] (subs o))].
               ++ intros a G _ _. apply safe_DestroySub. split; [reflexivity | exact I].
               ++ intros y [].
            -- cbn beta. intros bs L' (P & _). rewrite flat_map_nil in P. exact P.
          * intros. now apply safe_ret.
        + cbn beta. intros _ L' P. apply safe_ret. now apply HQ. }
    destruct (is2d o) eqn:E2.
    - eapply (safe_release2 _ (ncells o)); [reflexivity | exact Y].
    - apply safe_ret. rewrite (k_d2 o K E2). exact Y. }
  destruct (store o).
  - apply safe_bind. eapply (safe_release2 _ (ncells o) _ (held (idx o) (ncells o) ++ R)); [unfold R; psolve | ].
    apply safe_bind. eapply (safe_release1 _ (ncells o)); [reflexivity | ]. exact X.
  - apply safe_bind, safe_ret. apply safe_bind, safe_ret. exact X.
Qed.
