(** C55, C56, C85-C87: memory of rasters and subsets. *)
From Coq Require Import List Bool Arith Lia Permutation.
From Verif Require Import Base OwnModel OwnSpec OwnProofs OwnProofs2 OwnProofs3 OwnProofs4 OwnProofs5 OwnProofs6.
Import ListNotations.

Lemma reached_orderly w : reached w -> orderly w.
Proof.
  intros (cs & C & R). destruct (careful_run_orderly cs nothing orderly_nothing C) as (w' & R' & W). congruence.
Qed.
Lemma reached_plain_orderly w : reached_plain w -> orderly w /\ no_masks w.
Proof.
  intros (cs & C & R). destruct (plain_run_orderly cs nothing orderly_nothing ltac:(intros i o E; discriminate) C) as (w' & R' & W). congruence.
Qed.

(** ** C55: programs without masks *)
(** No program without masks releases an array twice, uses one after its release or
    beyond its end; what is live is what rasters hold, every array once. *)
Theorem C55_safe : forall cs, plain_run nothing cs ->
  exists w, run nothing cs = Ok w /\ NoDup (map fst (h_live (w_heap w))) /\ Permutation (h_live (w_heap w)) (held_all w).
Proof.
  intros cs C. destruct (plain_run_orderly cs nothing orderly_nothing ltac:(intros i o E; discriminate) C) as (w & R & (O & _) & _).
  exists w. split; [exact R | ]. split; [now apply (owns_nodup _ _ O) | ]. apply O.
Qed.
Print Assumptions C55_safe.

(** Nothing is left when all rasters are gone. *)
Theorem C55_nothing_left : forall cs w, plain_run nothing cs -> run nothing cs = Ok w -> w_objs w = [] -> h_live (w_heap w) = [].
Proof.
  intros cs w C R E. destruct (C55_safe cs C) as (w' & R' & _ & P). assert (w' = w) by congruence. subst w'.
  unfold held_all in P. rewrite E in P. now apply Permutation_nil, Permutation_sym.
Qed.
Print Assumptions C55_nothing_left.

(** A raster without a single valid cell cannot be destroyed once its positions have
    been computed. *)
Theorem C55_nodata_refuted : forall w i o, reached_plain w -> objof (w_objs w) i = Some o -> pos o = None ->
  run w [Calc i 0; Delete i] = UB.
Proof.
  intros w i o H E P. destruct (reached_plain_orderly w H) as ((O & S) & N). destruct (N i o E) as (U & V).
  destruct (s_ok _ _ S i o E) as (K & KU). assert (I := idx_none o K P).
  destruct (KU U) as (_ & [(C & X) | (C & _ & G)]); [congruence | ].
  cbn [run step]. unfold with_obj. rewrite E, U. unfold SetCalcPositions. rewrite V, C, P, I. cbn [negb andb null orb].
  set (o1 := set_places o None None true (store o) (ncells o)).
  assert (K1 : obj_ok o1) by (destruct K; constructor; auto).
  unfold CalculateValid. change (pos o1) with (@None nat). change (idx o1) with (@None nat). change (grid o1) with (grid o). change (is2d o1) with (is2d o).
  change (d1 o1) with (d1 o). change (d2 o1) with (d2 o).
  assert (Hs := hall_split _ _ _ E).
  assert (Hd : held_obj o1 = held_obj o) by (unfold o1; hcbn; now rewrite P, I).
  assert (R : safe (read_data (grid o) o1) (hall (w_objs w)) (fun _ L => L = hall (w_objs w))).
  { apply safe_read; auto.
    - intros y Hy. eapply Permutation_in; [symmetry; exact Hs | ]. apply in_or_app. left. now rewrite <- Hd.
    - cbn. lia. }
  destruct (R _ O) as (u & h1 & L1 & E1 & O1 & ->). unfold bind at 1 2. rewrite E1. cbn [obind fst snd]. 
  assert (OP : Permutation (hall (w_objs w)) (held (d1 o) (ncells o) ++ held (d2 o) (ncells o) ++ held_stats (stats o) (nlyrs o) ++ flat_map held_sub (subs o) ++ hall (objdrop (w_objs w) i))).
  { rewrite Hs. unfold held_obj. rewrite P, I. cbn [held app]. destruct (store o); psolve. }
  destruct (valid_data o K V) as [(T & D) | (T & D)]; rewrite T.
  - rewrite (k_d1 o K T) in *. cbn [held app] in OP.
    destruct (safe_release2 (d2 o) (ncells o) _ _ (fun _ _ => True) OP Logic.I h1 O1) as (u2 & h2 & L2 & E2 & O2 & _).
    unfold bind. rewrite E2. cbn. 
    rewrite (objof_put_eq _ _ _ _ E). cbn. unfold bind. cbn. rewrite Nat.eqb_refl. reflexivity.
  - rewrite (k_d2 o K T) in *.
    destruct (safe_release1 (d1 o) (ncells o) _ _ (fun _ _ => True) OP Logic.I h1 O1) as (u2 & h2 & L2 & E2 & O2 & _).
    unfold bind. rewrite E2. cbn.
    rewrite (objof_put_eq _ _ _ _ E). cbn. unfold bind. cbn. rewrite Nat.eqb_refl. reflexivity.
Qed.
Print Assumptions C55_nodata_refuted.

(** Handing positions to a raster that has its own loses the other of its two
    arrays. *)
Theorem C55_given_refuted : forall w i o, reached_plain w -> objof (w_objs w) i = Some o -> pos o <> None ->
  exists w' b, run w [Give i (ncells o); Delete i] = Ok w' /\ idx o = Some b
    /\ In b (map fst (h_live (w_heap w'))) /\ ~ In b (map fst (held_all w')).
Proof.
  intros w i o H E P. destruct (reached_plain_orderly w H) as ((O & S) & N). destruct (N i o E) as (U & V).
  destruct (s_ok _ _ S i o E) as (K & KU). assert (I := idx_some o K P).
  assert (St : store o = true) by (apply own_store; auto).
  assert (Hs := hall_split _ _ _ E). set (F := hall (objdrop (w_objs w) i)) in *.
  cbn [run step]. unfold with_obj. rewrite E. rewrite Nat.eqb_refl.
  set (L1 := bare2 (set_places o None None true false (ncells o)) ++ held_stats (stats o) (nlyrs o) ++ held (idx o) (ncells o) ++ F).
  assert (Sf : safe (let! b := new (ncells o) in SetPositions2D true b o) (hall (w_objs w)) (fun o' L' => exists b,
     o' = set_places o (Some b) (idx o) true false (ncells o) /\ Permutation L' ((b, ncells o) :: L1))).
  { apply safe_bind. apply safe_new; [exact (k_cells o K) | ]. intro b. unfold SetPositions2D.
    destruct (pos o) as [p | ] eqn:EP; [ | congruence]. cbn [negb].
    apply safe_bind. apply (safe_release2 _ (ncells o) _ ((b, ncells o) :: L1)).
    - unfold L1, bare2. cbn [set_places d1 d2 store pos idx ncells subs]. unfold held_obj in Hs. rewrite St, EP in Hs. psolve.
    - apply safe_ret. exists b. split; reflexivity. }
  destruct (Sf _ O) as (o' & h1 & L2 & E1 & O1 & b & -> & P1). rewrite E1. cbn [obind fst snd w_objs w_heap w_count].
  rewrite (objof_put_eq _ _ _ _ E).
  set (o' := set_places o (Some b) (idx o) true false (ncells o)).
  assert (K' : obj_ok o').
  { destruct K. unfold o'. constructor; auto. cbn. now rewrite (null_some _ I). }
  destruct (safe_Destroy o' ((b, ncells o) :: held (idx o) (ncells o) ++ F) (fun _ L' => Permutation L' ((b, ncells o) :: held (idx o) (ncells o) ++ F)) K' ltac:(auto) h1) as (u & h2 & L3 & E2 & O2 & P2).
  { eapply owns_perm; [ | exact O1]. rewrite P1. unfold L1, o'. hcbn. unfold bare2. cbn [set_places d1 d2 store pos idx ncells subs]. psolve. }
  rewrite E2. cbn [obind fst snd].
  destruct (idx o) as [c | ] eqn:EI; [ | congruence].
  eexists. exists c. split; [reflexivity | ]. split; [reflexivity | ]. cbn [w_heap w_objs]. unfold held_all. cbn [w_objs].
  assert (DP : objdrop (objput (w_objs w) i o') i = objdrop (w_objs w) i).
  { clear. induction (w_objs w) as [ | (j, q) t IH]; cbn [objput]; [reflexivity | ].
    destruct (Nat.eqb_spec i j) as [-> | D]; cbn [objdrop].
    - now rewrite !Nat.eqb_refl.
    - destruct (Nat.eqb_spec i j); [congruence | ]. now rewrite IH. }
  rewrite DP. fold (hall (objdrop (w_objs w) i)). fold F.
  destruct (owns_perm _ _ _ P2 O2) as (A & B & _). cbn [held app map fst] in B. inversion B as [ | x y B1 B2]; subst. inversion B2 as [ | x y B3 B4]; subst.
  split; [ | exact B3]. apply (in_map fst _ (c, ncells o)). eapply Permutation_in; [symmetry; exact A | ]. cbn. auto.
Qed.
Print Assumptions C55_given_refuted.

Ltac go1 := progress (cbn; unfold bind, touch, with_obj, throw, Masking, SetCalcPositions, GetPositions, CalculateValid, Access, read_data, Copy, release1, release2, init1, init2, init1_from, init2_from, free, new, ret; rewrite ?Nat.leb_refl, ?Nat.eqb_refl).
(** Copying single-layer rasters of growing size onto a raster with layers keeps the
    array of the first: the statistics then go beyond its end. *)
Theorem C55_layers_refuted : forall n l n1 n2, 1 <= n -> 1 <= n1 < n2 ->
  run nothing [New2 n l; New n1; New n2; CopyTo 0 1; CopyTo 0 2; Stats 0] = UB.
Proof.
  intros n l n1 n2 H H1. destruct n as [ | n]; [lia | ]. destruct n1 as [ | n1]; [lia | ]. destruct n2 as [ | n2]; [lia | ].
  assert (D : (n2 <=? n1)%nat = false) by (apply Nat.leb_gt; lia).
  repeat go1. rewrite D. reflexivity.
Qed.
Print Assumptions C55_layers_refuted.

(** ** C56: programs with masks *)
(** Programs that keep clear of the cases below are safe with masks as well. *)
Theorem C56_safe : forall cs, careful_run nothing cs ->
  exists w, run nothing cs = Ok w /\ NoDup (map fst (h_live (w_heap w))) /\ Permutation (h_live (w_heap w)) (held_all w)
    /\ (w_objs w = [] -> h_live (w_heap w) = []).
Proof.
  intros cs C. destruct (careful_run_orderly cs nothing orderly_nothing C) as (w & R & (O & _)).
  exists w. split; [exact R | ]. split; [now apply (owns_nodup _ _ O) | ]. destruct O as (A & _). split; [exact A | ].
  intro E. rewrite E in A. now apply Permutation_nil, Permutation_sym.
Qed.
Print Assumptions C56_safe.

(** A raster read within the extent of its mask, all mask cells having values. *)
Definition lies_within (l : lie) : Prop := l_any l = true /\ l_within l = true /\ l_exact l = true /\ 1 <= l_valid l.

(** Copying onto a masked raster releases the positions of its mask. *)
Theorem C56_copy_refuted : forall n n2 n3 c e l, 1 <= n -> 1 <= n2 -> 1 <= n3 -> lies_within l ->
  (exists w, run nothing [New n; ReadMasked false n2 1 0 c e l; New n3; CopyTo 1 2] = Ok w)
  /\ run nothing [New n; ReadMasked false n2 1 0 c e l; New n3; CopyTo 1 2; Use 0] = UB
  /\ run nothing [New n; ReadMasked false n2 1 0 c e l; New n3; CopyTo 1 2; Delete 0] = UB.
Proof.
  intros n n2 n3 c e l H1 H2 H3 (A & B & C & D). destruct n as [ | n], n2 as [ | n2], n3 as [ | n3]; try lia.
  destruct l as [la lw le lc lg lv ls]. cbn in A, B, C, D. subst. destruct lv as [ | lv]; [lia | ].
  destruct c, e; repeat go1; (split; [eexists; reflexivity | split; reflexivity]).
Qed.
Print Assumptions C56_copy_refuted.
