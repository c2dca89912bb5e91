(** Masking. *)
From Coq Require Import List Bool Arith Lia Permutation.
From Verif Require Import Base OwnModel OwnSpec OwnProofs OwnProofs2 OwnProofs3.
Import ListNotations.

Definition no_values (u : sub) : Prop := u_data u = None /\ u_data2 u = None.

Lemma safe_fit_sub redo u n F :
  sub_ok u -> (redo = true -> no_values u) ->
  safe (fit_sub redo (u, n)) (held_sub u ++ F) (fun vs L' => Permutation L' (flat_map held_sub vs ++ F) /\ Forall sub_ok vs).
Proof.
  intros K V. unfold fit_sub. destruct n as [ | n'].
  - apply safe_bind. apply safe_DestroySub. apply safe_ret. split; [reflexivity | constructor].
  - destruct redo.
    + destruct K as (Hn & Ha & _). destruct (V eq_refl) as (V1 & V2). rewrite Ha. unfold held_sub at 1. rewrite Ha, V1, V2. cbn [held].
      apply safe_bind. apply safe_bind. eapply (safe_release1 _ (u_n u) _ (held (u_lpos u) (u_n u) ++ held (u_lidx u) (u_n u) ++ F)); [psolve | ].
      apply safe_bind. eapply (safe_release2 _ (u_n u)); [reflexivity | ].
      eapply (safe_release1 _ (u_n u)); [reflexivity | ].
      apply safe_bind. apply safe_init1; [lia | ]. intro g.
      apply safe_bind. apply safe_init2; [lia | ]. intro p.
      apply safe_bind. apply safe_init1; [lia | ]. intro i. apply safe_ret. split.
      * cbn [flat_map]. unfold held_sub. cbn [u_alloc u_lpos u_lidx u_global u_data u_data2 u_n held]. psolve.
      * constructor; [ | constructor]. repeat split; cbn; congruence || lia || auto.
    + apply safe_ret. split; [cbn [flat_map]; rewrite app_nil_r; reflexivity | ]. now constructor.
Qed.

Lemma combine_held us : forall ns, length ns = length us -> flat_map (fun un : sub * nat => held_sub (fst un)) (combine us ns) = flat_map held_sub us.
Proof. induction us as [ | u t IH]; intros [ | n ns] E; cbn in *; try discriminate; auto. rewrite IH by lia. reflexivity. Qed.

Lemma concat_held bs : flat_map (fun vs => flat_map held_sub vs) bs = flat_map held_sub (concat bs).
Proof. induction bs as [ | b t IH]; cbn; [reflexivity | ]. now rewrite flat_map_app, IH. Qed.

Lemma Forall_concat {A} (P : A -> Prop) bs : Forall (Forall P) bs -> Forall P (concat bs).
Proof. induction 1; cbn; [constructor | ]. apply Forall_app. auto. Qed.

(** The first lines: the positions of the mask. *)
Lemma own_store m : un m -> omask m = None -> pos m <> None -> store m = true.
Proof. intros KU U N. destruct (KU U) as ([S | (E & _)] & _); congruence. Qed.

Lemma own_seen m L : store m = true -> incl (held_obj m) L -> seen m L.
Proof. intros S I y Hy. apply I. unfold held_obj. rewrite S. rewrite !in_app_iff in *. tauto. Qed.

Lemma safe_mask_positions k m F :
  obj_ok m -> un m -> omask m = None -> valid m = true -> 1 <= k ->
  forall (B : Type) (f : obj -> M B) (Q : B -> list blk -> Prop),
  (forall m' L', Permutation L' (held_obj m' ++ F) -> obj_ok m' -> un m' -> kept m m' -> (pos m <> None -> m' = m) -> pos m' <> None -> idx m' <> None ->
     safe (f m') L' Q) ->
  safe (let! m := (if negb (calc m) then SetCalcPositions k m else ret m) in
        let! m := (if negb (null (pos m)) then ret m else if negb (valid m) then ret m else CalculateValid k m) in f m) (held_obj m ++ F) Q.
Proof.
  intros K KU U V Hk B f Q HQ.
  eapply safe_let with (P := fun m' L' => Permutation L' (held_obj m' ++ F) /\ obj_ok m' /\ un m' /\ kept m m' /\ (pos m <> None -> m' = m) /\ pos m' <> None /\ idx m' <> None).
  - destruct (KU U) as (Ow & [(C & P) | (C & P & G)]); rewrite C; cbn [negb].
    + apply safe_ret. split; [reflexivity | ]. split; [exact K | ]. split; [exact KU | ]. split; [apply kept_refl | ].
      split; [reflexivity | ]. split; [exact P | now apply idx_some].
    + eapply safe_cons; [apply safe_SetCalcPositions; auto | ]. cbn beta. intros m' L' (A & A2 & A3 & A4 & A5 & A6).
      destruct (A6 V) as (B1 & B2 & _). auto 10.
  - cbn beta. intros m' L' (A & A2 & A3 & A4 & A5 & A6 & A7). rewrite (null_some _ A6). cbn [negb].
    apply safe_bind, safe_ret. now apply HQ.
Qed.

Definition borrows (o m : obj) : Prop := pos o = pos m /\ idx o = idx m /\ ncells o = ncells m.

Lemma safe_Masking l o m F :
  obj_ok o -> own_positions o -> readable o -> omask o <> None -> valid o = true ->
  obj_ok m -> un m -> omask m = None -> valid m = true -> lie_ok l (ext o) m ->
  safe (Masking l o m) (held_obj o ++ held_obj m ++ F) (fun r L' =>
    let '(_, o', m') := r in
    Permutation L' (held_obj o' ++ held_obj m' ++ F) /\ obj_ok o' /\ un o' /\ (omask o' = omask o \/ omask o' = None)
    /\ obj_ok m' /\ un m' /\ omask m' = None /\ (pos m <> None -> m' = m)
    /\ (own_positions o' \/ (omask o' = omask o /\ borrows o' m'))).
Proof.
  intros K OW RD NM V KM KUM UM VM (Lc & Lg & Lv & Ls). unfold Masking.
  eapply safe_perm; [ | eapply safe_mask_positions with (F := held_obj o ++ F); eauto].
  { psolve. }
  intros m1 L1 P1 KM1 KUM1 Kp Same NP NI. cbn zeta.
  assert (UM1 : omask m1 = None) by (destruct Kp as (_&_&_&_&_&_&E&_); congruence).
  assert (VM1 : valid m1 = true) by (destruct Kp as (_&_&_&_&_&_&_&_&E); congruence).
  assert (SM1 : subs m1 = subs m) by (destruct Kp as (_&_&_&_&_&E&_); congruence).
  assert (St1 := own_store m1 KUM1 UM1 NP).
  apply safe_bind. apply (safe_touch _ _ (ncells m1)); auto.
  { intros y Hy. eapply Permutation_in; [symmetry; exact P1 | ]. unfold held_obj. rewrite St1. rewrite !in_app_iff. tauto. }
  assert (IO : incl (held_obj o) L1) by (intros y Hy; eapply Permutation_in; [symmetry; exact P1 | rewrite !in_app_iff; tauto]).
  assert (SO : seen o L1).
  { destruct OW as [S | (E1 & E2)]; [now apply own_seen | ]. unfold seen. rewrite E1, E2. intros y []. }
  apply safe_bind. apply safe_Access; auto. clear IO SO.
  destruct (l_any l); cbn [negb].
  2: { apply safe_ret. split; [psolve | ]. split; [exact K | ]. split; [intro; congruence | ]. split; [now left | ].
       repeat (split; [assumption | ]). now left. }
  set (keep := l_within l || ext o).
  set (has := match subs m1 with [] => false | _ => true end).
  set (redo := has && negb (l_exact l) && negb keep).
  assert (VS : redo = true -> forall u, In u (subs m1) -> no_values u).
  { unfold redo, keep. intros E u Hu. apply andb_prop in E. destruct E as (E & E3). apply andb_prop in E. destruct E as (_ & E2).
    apply negb_true_iff in E2, E3. apply orb_false_elim in E3. destruct E3. apply Ls; auto. congruence. }
  eapply safe_let with (P := fun o1 L' => Permutation L' (held_obj o1 ++ held_obj m1 ++ F) /\ exists us, o1 = set_subs o us /\ Forall sub_ok us
      /\ (redo = true -> Forall no_values us)).
  { destruct has eqn:EH.
    - apply safe_bind. eapply safe_perm with (L' := held_obj o ++ held_obj m1 ++ F); [psolve | ]. apply safe_ReleaseSubset. intros L2 P2.
      eapply safe_let.
      + eapply safe_perm; [ | apply (safe_mapM (CopySub true) (fun _ => []) held_sub (fun v => sub_ok v /\ (redo = true -> no_values v)) (held_obj m1) (subs m1)) with (F := L2)].
        * rewrite flat_map_nil. reflexivity.
        * intros u G Hu KG. cbn [app]. eapply safe_cons.
          -- apply safe_CopySub.
             ++ pose proof (k_subs m1 KM1) as Fa. rewrite Forall_forall in Fa. auto.
             ++ intros y Hy. apply KG. rewrite held_bare, in_app_iff. right. apply in_flat_map. exists u. auto.
          -- cbn beta. intros v L' (P & Ok_ & _ & E1 & E2). split; [exact P | ]. split; [exact Ok_ | ].
             intro R. destruct (VS R u Hu) as (X1 & X2). split; apply null_none; [rewrite E1, X1 | rewrite E2, X2]; reflexivity.
        * intros y Hy. eapply Permutation_in; [symmetry; exact P2 | ]. rewrite !in_app_iff. tauto.
      + cbn beta. intros us L3 (P3 & Us). apply safe_ret. split.
        * change (set_subs (set_subs o []) us) with (set_subs o us). rewrite held_subs. rewrite held_subs in P2. cbn [flat_map] in P2. psolve.
        * exists us. split; [reflexivity | ]. split.
          -- eapply Forall_impl; [ | exact Us]. cbn. tauto.
          -- intro R. eapply Forall_impl; [ | exact Us]. cbn. tauto.
    - apply safe_ret. split; [psolve | ]. exists (subs o). split; [destruct o; reflexivity | ].
      split; [exact (k_subs o K) | ]. unfold redo. discriminate. }
  cbn beta. clear P1 L1. intros o1 L1 (P1 & us & -> & Us & UV).
  cbn [set_subs ext calc]. fold keep.
  set (recalc := calc o && (negb (l_exact l) || negb keep)).
  set (full := negb keep && negb (calc o)).
  set (c := if keep then true else calc o).
  cbn [set_grid set_subs pos idx d1 d2 calc store is2d scalc ncells nlyrs grid stats subs omask ext].
  set (R := held (d1 o) (ncells o) ++ held (d2 o) (ncells o) ++ held_stats (stats o) (nlyrs o) ++ flat_map held_sub us).
  (* old positions *)
  assert (P2 : Permutation L1 (held (pos o) (ncells o) ++ held (idx o) (ncells o) ++ R ++ held_obj m1 ++ F)).
  { hcbn_in P1. unfold R. destruct OW as [S | (E1 & E2)].
    - rewrite S in P1. fold (held_obj m1) in P1. psolve.
    - rewrite E1, E2 in *. cbn [held app] in *. fold (held_obj m1) in P1. destruct (store o); psolve. }
  apply safe_bind. eapply (safe_release2 _ (ncells o)); [exact P2 | ].
  apply safe_bind. eapply (safe_release1 _ (ncells o)); [reflexivity | ].
  clear P1 P2 L1.
  set (g := if keep then grid m1 else l_grid l).
  set (o2 := mkObj (d1 o) (d2 o) (pos o) (idx o) (calc o) (store o) (is2d o) (scalc o) (ncells o) (nlyrs o) g (stats o) us (omask o) (ext o)).
  change (set_grid (set_subs o us) g) with o2.
  (* new positions *)
  eapply safe_let with (P := fun om L' => exists p i s n,
      om = (set_places o2 p i c s n, m1)
      /\ Permutation L' ((if s then held p n ++ held i n else []) ++ R ++ held_obj m1 ++ F)
      /\ 1 <= n /\ null p = null i /\ (c = true -> p <> None) /\ (c = false -> p = None /\ n = g)
      /\ (s = true \/ (p = None /\ i = None) \/ (p = pos m1 /\ i = idx m1 /\ n = ncells m1))
      /\ (full || recalc = true -> s = true \/ (p = None /\ i = None))
      /\ (full = true -> c = false)).
  { assert (Efull : full = true -> c = false).
    { unfold full, c. destruct keep, (calc o); cbn; congruence. }
    destruct recalc eqn:ER.
    - apply safe_bind. apply safe_init2; [exact Lc | ]. intro p. apply safe_bind. apply safe_init1; [exact Lc | ]. intro i.
      apply safe_ret. exists (Some p), (Some i), true, (l_cells l). split; [reflexivity | ]. split; [cbn [held]; psolve | ].
      split; [exact Lc | ]. split; [reflexivity | ]. split; [congruence | ]. split; [ | auto].
      unfold recalc in ER. apply andb_prop in ER. unfold c. destruct keep; [discriminate | ]. destruct ER as (-> & _). discriminate.
    - destruct c eqn:EC.
      + eapply safe_let. { eapply safe_perm with (L' := held_obj m1 ++ R ++ F); [psolve | ]. apply (safe_GetPositions (l_valid l)); auto. }
        cbn beta. intros m2 L2 (Q2 & _ & _ & _ & S2 & _). rewrite (S2 NP) in *. apply safe_ret.
        exists (pos m1), (idx m1), false, (ncells m1). split; [reflexivity | ]. split; [cbn [app]; psolve | ].
        split; [exact (k_cells m1 KM1) | ]. split; [exact (k_pi m1 KM1) | ]. split; [auto | ]. split; [discriminate | ].
        split; [auto | ]. split; [ | exact Efull]. rewrite orb_false_r. intro E. specialize (Efull E). discriminate.
      + apply safe_ret. exists None, None, false, (l_grid l). split; [reflexivity | ]. split; [cbn [app held]; reflexivity | ].
        split; [exact Lg | ]. split; [reflexivity | ]. split; [discriminate | ]. split.
        { intros _. split; [reflexivity | ]. unfold g, c in *. destruct keep; [discriminate | reflexivity]. }
        split; [auto | ]. split; [auto | auto]. }
  cbn beta. intros om L1 (p & i & s & n & -> & P1 & Hn & Epi & Ct & Cf & Sp & FR & Fc).
  (* data *)
  cbn [set_places o2 ncells is2d d1 d2].
  assert (FN : full = true -> ncells o = grid o).
  { intro E. destruct RD as [(C & _) | G]; [ | exact G]. specialize (Fc E). unfold full in E. rewrite C in E. rewrite andb_false_r in E. discriminate. }
  eapply safe_let with (P := fun o3 L' => exists a b,
      o3 = set_data (set_places o2 p i c s n) a b n
      /\ Permutation L' (held a n ++ held b n ++ (if s then held p n ++ held i n else []) ++ held_stats (stats o) (nlyrs o) ++ flat_map held_sub us ++ held_obj m1 ++ F)
      /\ (is2d o = true -> a = None /\ b <> None) /\ (is2d o = false -> b = None /\ a <> None)).
  { unfold R in P1. destruct (full && (grid o =? n)) eqn:EF.
    - apply andb_prop in EF. destruct EF as (EF & EN). apply Nat.eqb_eq in EN. assert (G := FN EF).
      apply safe_ret. exists (d1 o), (d2 o). split; [destruct o; reflexivity | ].
      rewrite <- EN, <- G in *. split; [psolve | ].
      destruct (valid_data o K V) as [(E & D) | (E & D)]; rewrite E.
      + split; [ | discriminate]. split; [now apply (k_d1 o K) | exact D].
      + split; [discriminate | ]. split; [now apply (k_d2 o K) | exact D].
    - destruct (valid_data o K V) as [(E & D) | (E & D)]; rewrite E.
      + rewrite (null_some _ D). cbn [negb andb]. rewrite (k_d1 o K E) in *. cbn [held app] in P1.
        apply safe_bind. eapply (safe_release2 _ (ncells o)); [rewrite P1; instantiate (1 := (if s then held p n ++ held i n else []) ++ held_stats (stats o) (nlyrs o) ++ flat_map held_sub us ++ held_obj m1 ++ F); psolve | ].
        apply safe_bind. apply safe_init2; [exact Hn | ]. intro b. apply safe_ret. exists None, (Some b).
        split; [reflexivity | ]. split; [cbn [held]; psolve | ]. split; [split; congruence | discriminate].
      + cbn [andb]. rewrite (k_d2 o K E) in *. cbn [held app] in P1.
        apply safe_bind. eapply (safe_release1 _ (ncells o)); [rewrite P1; instantiate (1 := (if s then held p n ++ held i n else []) ++ held_stats (stats o) (nlyrs o) ++ flat_map held_sub us ++ held_obj m1 ++ F); psolve | ].
        apply safe_bind. apply safe_init1; [exact Hn | ]. intro b. apply safe_ret. exists (Some b), None.
        split; [reflexivity | ]. split; [cbn [held]; psolve | ]. split; [discriminate | split; congruence]. }
  cbn beta. clear P1 L1. intros o3 L1 (a & b & -> & P1 & Da & Db).
  set (o3 := set_data (set_places o2 p i c s n) a b n).
  assert (K3 : obj_ok o3).
  { destruct K. unfold o3, o2. constructor; cbn; auto; [intro E; now apply Da | intro E; now apply Db]. }
  assert (Q1 : Permutation L1 (held_obj o3 ++ held_obj m1 ++ F)).
  { unfold o3, o2. hcbn. fold (held_obj m1). psolve. }
  (* subsets *)
  eapply safe_let with (P := fun o4 L' => exists vs, o4 = set_subs o3 vs /\ Permutation L' (held_obj o4 ++ held_obj m1 ++ F) /\ Forall sub_ok vs).
  { destruct has.
    - apply safe_bind. apply (safe_touch _ _ (ncells m1)); auto.
      { intros y Hy. eapply Permutation_in; [symmetry; exact Q1 | ]. unfold held_obj at 2. rewrite St1. rewrite !in_app_iff. tauto. }
      apply safe_bind. apply safe_Access; auto.
      { unfold o3, o2. destruct c eqn:EC.
        - left. cbn. split; [reflexivity | ]. assert (p <> None) by auto. split; [assumption | ]. apply null_not. rewrite <- Epi. now apply null_some.
        - right. cbn. now destruct (Cf eq_refl). }
      { intros y Hy. eapply Permutation_in; [symmetry; exact Q1 | ]. apply in_or_app. now left. }
      { unfold seen, o3, o2. cbn. intros y Hy. eapply Permutation_in; [symmetry; exact P1 | ]. destruct Sp as [-> | [(-> & ->) | (-> & -> & ->)]].
        - rewrite !in_app_iff in *. tauto.
        - destruct Hy.
        - unfold held_obj. rewrite St1. rewrite !in_app_iff in *. tauto. }
      eapply safe_let.
      { eapply safe_perm; [ | apply (safe_mapM (fit_sub redo) (fun un => held_sub (fst un)) (fun vs => flat_map held_sub vs) (Forall sub_ok) []
           (combine us (map (l_subs l) (seq 0 (length us))))) with (F := bare o3 ++ held_obj m1 ++ F)].
        - rewrite combine_held by (now rewrite map_length, seq_length). rewrite (held_bare o3) in Q1. change (subs o3) with us in Q1. psolve.
        - intros (u, k) G Hu _. apply in_combine_l in Hu. cbn [fst]. apply safe_fit_sub.
          + rewrite Forall_forall in Us. auto.
          + intro R0. specialize (UV R0). rewrite Forall_forall in UV. auto.
        - intros y []. }
      cbn beta. intros bs L' (P & Vs). apply safe_ret. exists (concat bs). split; [reflexivity | ]. split.
      + rewrite held_subs. fold (bare o3). rewrite concat_held in P. psolve.
      + now apply Forall_concat.
    - apply safe_ret. exists us. split; [reflexivity | ]. split; [exact Q1 | exact Us]. }
  cbn beta. intros o4 L4 (vs & -> & P4 & Vs). apply safe_ret.
  assert (K4 : obj_ok (set_subs o3 vs)) by (now apply obj_ok_subs).
  destruct (full || recalc) eqn:EFR.
  - split; [exact P4 | ]. split; [destruct K4; constructor; auto | ]. specialize (FR eq_refl). split.
    { intros _. split; [exact FR | ]. cbn. destruct c; [left; auto | right; split; [reflexivity | now apply Cf] ]. }
    split; [now right | ]. repeat (split; [assumption | ]). now left.
  - split; [exact P4 | ]. split; [exact K4 | ]. split; [intro E; cbn in E; congruence | ]. split; [now left | ].
    repeat (split; [assumption | ]). cbn. unfold own_positions, borrows. cbn. destruct Sp as [E | [E | E]]; auto.
Qed.

(** The constructor from a mask and values. *)
Lemma safe_FromMask two k n lyrs id m F :
  obj_ok m -> un m -> omask m = None -> valid m = true -> 1 <= k -> 1 <= lyrs ->
  safe (FromMask two k n lyrs id m) (held_obj m ++ F) (fun r L' =>
    Permutation L' (held_obj (fst r) ++ held_obj (snd r) ++ F) /\ obj_ok (fst r) /\ omask (fst r) = Some id
    /\ obj_ok (snd r) /\ un (snd r) /\ omask (snd r) = None /\ (pos m <> None -> snd r = m) /\ borrows (fst r) (snd r)).
Proof.
  intros K KU U V Hk Hl. unfold FromMask.
  eapply safe_let; [apply safe_GetPositions; auto | ]. cbn beta.
  intros m1 L1 (P1 & K1 & KU1 & Kp & Same & NP & NI).
  assert (U1 : omask m1 = None) by (destruct Kp as (_&_&_&_&_&_&E&_); congruence).
  assert (NS : forall l : list (option nat), Some (repeat None 6) = Some l -> Forall (eq None) l).
  { intros l E. injection E as <-. repeat constructor. }
  destruct (Nat.eqb_spec n (ncells m1)) as [-> | D].
  - apply safe_bind. apply safe_new; [exact (k_cells m1 K1) | ]. intro b. apply safe_ret. cbn [fst snd]. split.
    { unfold held_obj at 1. cbn [d1 d2 pos idx store ncells nlyrs stats subs held_stats flat_map repeat held app]. destruct two; cbn [held]; psolve. }
    split. { constructor; cbn; auto; try (intros ->; reflexivity); [exact (k_cells m1 K1) | exact (k_pi m1 K1)]. }
    split; [reflexivity | ]. repeat (split; [assumption | ]). repeat split.
  - apply safe_ret. cbn [fst snd]. split.
    { unfold held_obj at 1. cbn [d1 d2 pos idx store ncells nlyrs stats subs held_stats flat_map repeat held app]. psolve. }
    split. { constructor; cbn; auto; [exact (k_cells m1 K1) | exact (k_pi m1 K1)]. }
    split; [reflexivity | ]. repeat (split; [assumption | ]). repeat split.
Qed.
