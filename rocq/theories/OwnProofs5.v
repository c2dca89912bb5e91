(** Every careful call keeps memory in order. *)
From Coq Require Import List Bool Arith Lia Permutation.
From Verif Require Import Base OwnModel OwnSpec OwnProofs OwnProofs2 OwnProofs3 OwnProofs4.
Import ListNotations.

Definition hall (l : list (nat * obj)) : list blk := flat_map (fun x => held_obj (snd x)) l.

(** ** Tables of rasters *)
Lemma hall_split l i o : objof l i = Some o -> Permutation (hall l) (held_obj o ++ hall (objdrop l i)).
Proof.
  unfold hall. induction l as [ | (j, q) t IH]; cbn [objof objdrop flat_map snd]; [discriminate | ].
  destruct (Nat.eqb_spec i j) as [-> | D].
  - intro E. injection E as ->. reflexivity.
  - intro E. specialize (IH E). cbn [flat_map snd]. psolve.
Qed.
Lemma hall_put l i o o' : objof l i = Some o -> Permutation (hall (objput l i o')) (held_obj o' ++ hall (objdrop l i)).
Proof.
  unfold hall. induction l as [ | (j, q) t IH]; cbn [objof objdrop objput flat_map snd]; [discriminate | ].
  destruct (Nat.eqb_spec i j) as [-> | D].
  - intros _. reflexivity.
  - intro E. specialize (IH E). cbn [flat_map snd]. psolve.
Qed.
Lemma objof_put_eq l i o o' : objof l i = Some o -> objof (objput l i o') i = Some o'.
Proof.
  induction l as [ | (j, q) t IH]; cbn [objof objput]; [discriminate | ].
  destruct (Nat.eqb_spec i j) as [-> | D]; cbn [objof].
  - now rewrite Nat.eqb_refl.
  - destruct (Nat.eqb_spec i j); [congruence | exact IH].
Qed.
Lemma objof_put_ne l i k o' : i <> k -> objof (objput l i o') k = objof l k.
Proof.
  intro N. induction l as [ | (j, q) t IH]; cbn [objof objput]; [reflexivity | ].
  destruct (Nat.eqb_spec i j) as [-> | D]; cbn [objof].
  - destruct (Nat.eqb_spec k j); [congruence | reflexivity].
  - destruct (Nat.eqb_spec k j); [reflexivity | exact IH].
Qed.
Lemma ids_put l i o' : map fst (objput l i o') = map fst l.
Proof. induction l as [ | (j, q) t IH]; cbn [objput]; [reflexivity | ]. destruct (Nat.eqb_spec i j) as [-> | D]; cbn; congruence. Qed.
Lemma objof_absent l j : ~ In j (map fst l) -> objof l j = None.
Proof.
  induction l as [ | (a, b) t IH]; cbn; [reflexivity | ]. intro N. destruct (Nat.eqb_spec j a) as [-> | ]; [exfalso; auto | ]. apply IH. tauto.
Qed.
Lemma objof_drop l i k : NoDup (map fst l) -> objof (objdrop l i) k = if Nat.eqb k i then None else objof l k.
Proof.
  induction l as [ | (j, q) t IH]; cbn [objof objdrop map fst]; intro N.
  - now destruct (Nat.eqb k i).
  - inversion N; subst. destruct (Nat.eqb_spec i j) as [-> | D].
    + destruct (Nat.eqb_spec k j) as [E | D2]; [ | reflexivity]. rewrite E.
      now apply objof_absent.
    + cbn [objof]. destruct (Nat.eqb_spec k j) as [E | D2].
      * destruct (Nat.eqb_spec k i); [congruence | reflexivity].
      * auto.
Qed.
Lemma ids_drop_in l i k : In k (map fst (objdrop l i)) -> In k (map fst l).
Proof.
  induction l as [ | (j, q) t IH]; cbn [objdrop]; [auto | ]. destruct (Nat.eqb_spec i j) as [-> | D]; cbn; tauto.
Qed.
Lemma ids_drop_nodup l i : NoDup (map fst l) -> NoDup (map fst (objdrop l i)).
Proof.
  induction l as [ | (j, q) t IH]; cbn [objdrop]; [auto | ]. intro N. inversion N; subst.
  destruct (Nat.eqb_spec i j) as [-> | D]; [assumption | ]. cbn. constructor; [ | auto]. intro I. apply ids_drop_in in I. contradiction.
Qed.
Lemma objof_in l i o : objof l i = Some o -> In i (map fst l).
Proof. induction l as [ | (j, q) t IH]; cbn; [discriminate | ]. destruct (Nat.eqb_spec i j); auto. Qed.
Lemma objof_app l k o : ~ In k (map fst l) -> forall i, objof (l ++ [(k, o)]) i = if Nat.eqb i k then Some o else objof l i.
Proof.
  induction l as [ | (j, q) t IH]; cbn [app objof map fst In]; intros N i.
  - reflexivity.
  - destruct (Nat.eqb_spec i j) as [-> | D].
    + destruct (Nat.eqb_spec j k) as [-> | ]; [exfalso; auto | reflexivity].
    + apply IH. tauto.
Qed.
Lemma hall_app l k o : Permutation (hall (l ++ [(k, o)])) (held_obj o ++ hall l).
Proof. unfold hall. rewrite flat_map_app. cbn [flat_map snd]. psolve. Qed.

(** ** The invariant *)
Record shape (l : list (nat * obj)) (n : nat) : Prop := mkShape {
  s_ids : NoDup (map fst l); s_below : forall i, In i (map fst l) -> i < n;
  s_ok : forall i o, objof l i = Some o -> obj_ok o /\ un o;
  s_mask : forall i o j, objof l i = Some o -> omask o = Some j ->
           exists m, objof l j = Some m /\ omask m = None /\ (own_positions o \/ borrows o m) }.

Lemma shape_put l n i o o' :
  shape l n -> objof l i = Some o -> obj_ok o' -> un o' ->
  (forall j, omask o' = Some j -> j <> i /\ exists m, objof l j = Some m /\ omask m = None /\ (own_positions o' \/ borrows o' m)) ->
  (forall q x, objof l q = Some x -> q <> i -> omask x = Some i -> omask o' = None /\ (borrows x o -> own_positions x \/ borrows x o')) ->
  shape (objput l i o') n.
Proof.
  intros [S1 S2 S3 S4] E K KU M1 M2. constructor.
  - now rewrite ids_put.
  - rewrite ids_put. exact S2.
  - intros k q Eq. destruct (Nat.eq_dec i k) as [<- | D].
    + rewrite (objof_put_eq _ _ _ _ E) in Eq. injection Eq as <-. auto.
    + rewrite objof_put_ne in Eq by exact D. now apply (S3 k).
  - intros k q j Eq Ej. destruct (Nat.eq_dec i k) as [<- | D].
    + rewrite (objof_put_eq _ _ _ _ E) in Eq. injection Eq as <-. destruct (M1 j Ej) as (N & m & A). exists m.
      rewrite objof_put_ne by congruence. exact A.
    + rewrite objof_put_ne in Eq by exact D. destruct (S4 k q j Eq Ej) as (m & A & B & C).
      destruct (Nat.eq_dec i j) as [<- | D2].
      * exists o'. rewrite (objof_put_eq _ _ _ _ E). rewrite E in A. injection A as <-.
        destruct (M2 k q Eq ltac:(congruence) Ej) as (X & Y). split; [reflexivity | ]. split; [exact X | ]. destruct C; auto.
      * exists m. rewrite objof_put_ne by congruence. auto.
Qed.

Lemma shape_add l n o :
  shape l n -> obj_ok o -> un o ->
  (forall j, omask o = Some j -> exists m, objof l j = Some m /\ omask m = None /\ (own_positions o \/ borrows o m)) ->
  shape (l ++ [(n, o)]) (S n).
Proof.
  intros [S1 S2 S3 S4] K KU M. assert (N : ~ In n (map fst l)) by (intro I; apply S2 in I; lia).
  assert (NE : forall j m, objof l j = Some m -> Nat.eqb j n = false).
  { intros j m E. apply Nat.eqb_neq. intros ->. apply N. eapply objof_in; eauto. }
  constructor.
  - rewrite map_app. cbn. apply (Permutation_NoDup (l := n :: map fst l)); [apply Permutation_cons_append | ]. now constructor.
  - intros i I. rewrite map_app in I. apply in_app_or in I. destruct I as [I | [<- | []]]; [apply S2 in I; lia | cbn; lia].
  - intros i q. rewrite objof_app by exact N. destruct (Nat.eqb i n); [intro E; injection E as <-; auto | apply S3].
  - intros i q j. rewrite objof_app by exact N. destruct (Nat.eqb i n).
    + intros E Ej. injection E as <-. destruct (M j Ej) as (m & A & B). exists m. rewrite objof_app by exact N. now rewrite (NE j m A).
    + intros E Ej. destruct (S4 i q j E Ej) as (m & A & B). exists m. rewrite objof_app by exact N. now rewrite (NE j m A).
Qed.

Definition orderly (w : world) : Prop := owns (w_heap w) (hall (w_objs w)) /\ shape (w_objs w) (w_count w).

Lemma orderly_nothing : orderly nothing.
Proof.
  split.
  - repeat split; cbn; constructor.
  - constructor; cbn; try discriminate; [constructor | tauto].
Qed.

Lemma world_seen w i o : orderly w -> objof (w_objs w) i = Some o -> seen o (hall (w_objs w)).
Proof.
  intros (_ & S) E. destruct (s_ok _ _ S i o E) as (K & KU).
  assert (Own : own_positions o -> seen o (hall (w_objs w))).
  { intros [X | (X & Y)].
    - apply own_seen; [exact X | ]. intros y Hy. eapply Permutation_in; [symmetry; apply (hall_split _ _ _ E) | ]. apply in_or_app. now left.
    - unfold seen. rewrite X, Y. intros y []. }
  destruct (omask o) as [j | ] eqn:EM.
  - destruct (s_mask _ _ S i o j E EM) as (m & A & B & [C | (C1 & C2 & C3)]); [now apply Own | ].
    destruct (s_ok _ _ S j m A) as (Km & KUm). unfold seen. rewrite C1, C2, C3.
    destruct (KUm B) as ([X | (X & Y)] & _).
    + change (seen m (hall (w_objs w))). apply own_seen; [exact X | ].
      intros y Hy. eapply Permutation_in; [symmetry; apply (hall_split _ _ _ A) | ]. apply in_or_app. now left.
    + rewrite X, Y. intros y [].
  - apply Own. now apply KU.
Qed.

Lemma world_lent w i o : orderly w -> objof (w_objs w) i = Some o -> own_positions o \/ seen o (hall (objdrop (w_objs w) i)).
Proof.
  intros (_ & S) E. destruct (s_ok _ _ S i o E) as (K & KU). destruct (omask o) as [j | ] eqn:EM.
  - destruct (s_mask _ _ S i o j E EM) as (m & A & B & [C | (C1 & C2 & C3)]); [now left | right].
    assert (Md : objof (objdrop (w_objs w) i) j = Some m).
    { rewrite objof_drop by exact (s_ids _ _ S). destruct (Nat.eqb_spec j i); [ | exact A]. subst. rewrite E in A. injection A as <-. congruence. }
    destruct (s_ok _ _ S j m A) as (Km & KUm). unfold seen. rewrite C1, C2, C3. destruct (KUm B) as ([X | (X & Y)] & _).
    + change (seen m (hall (objdrop (w_objs w) i))). apply own_seen; [exact X | ].
      intros y Hy. eapply Permutation_in; [symmetry; apply (hall_split _ _ _ Md) | ]. apply in_or_app. now left.
    + rewrite X, Y. intros y [].
  - left. now apply KU.
Qed.
Lemma lent_seen o G F : own_positions o \/ seen o F -> incl (held_obj o) (G ++ F) -> seen o (G ++ F).
Proof.
  intros [[X | (X & Y)] | X] I.
  - now apply own_seen.
  - unfold seen. rewrite X, Y. intros y [].
  - intros y Hy. apply in_or_app. right. now apply X.
Qed.
Lemma world_seen' w i o : orderly w -> objof (w_objs w) i = Some o -> seen o (held_obj o ++ hall (objdrop (w_objs w) i)).
Proof.
  intros W E y Hy. eapply Permutation_in; [apply (hall_split _ _ _ E) | ]. now apply (world_seen w i o W E).
Qed.

(** A call on one raster that leaves positions in use alone. *)
Definition gentle (o o' : obj) : Prop :=
  omask o' = omask o
  /\ (pos o <> None -> pos o' = pos o /\ idx o' = idx o /\ ncells o' = ncells o /\ store o' = store o)
  /\ (pos o = None -> own_positions o').

Lemma gentle_shape l n i o o' : shape l n -> objof l i = Some o -> obj_ok o' -> un o' -> gentle o o' -> shape (objput l i o') n.
Proof.
  intros S E K KU (G1 & G2 & G3). destruct (s_ok _ _ S i o E) as (Ko & KUo). apply (shape_put l n i o o'); auto.
  - intros j Ej. rewrite G1 in Ej. destruct (s_mask _ _ S i o j E Ej) as (m & A & B & C). split.
    { intros ->. rewrite E in A. injection A as <-. congruence. }
    exists m. split; [exact A | ]. split; [exact B | ].
    destruct (pos o) as [p | ] eqn:EP; [ | left; auto]. destruct (G2 ltac:(congruence)) as (X1 & X2 & X3 & X4).
    destruct C as [[C | (C & _)] | (C1 & C2 & C3)].
    + left. left. congruence.
    + congruence.
    + right. repeat split; congruence.
  - intros q x Eq Nq Em. destruct (s_mask _ _ S q x i Eq Em) as (m & A & B & _). rewrite E in A. injection A as <-.
    split; [congruence | ]. intros (C1 & C2 & C3). destruct (pos o) as [p | ] eqn:EP.
    + destruct (G2 ltac:(congruence)) as (X1 & X2 & X3 & X4). right. repeat split; congruence.
    + left. right. split; [exact C1 | ]. rewrite C2. now apply idx_none.
Qed.

Lemma orderly_with w i o (f : obj -> M obj) :
  orderly w -> objof (w_objs w) i = Some o ->
  (obj_ok o -> un o -> forall F, own_positions o \/ seen o F ->
   safe (f o) (held_obj o ++ F) (fun o' L' => Permutation L' (held_obj o' ++ F) /\ obj_ok o' /\ un o' /\ gentle o o')) ->
  exists w', with_obj w i f = Ok w' /\ orderly w'.
Proof.
  intros W E H. assert (W0 := W). destruct W0 as (O & S). destruct (s_ok _ _ S i o E) as (K & KU).
  destruct (H K KU _ (world_lent w i o W E) (w_heap w)) as (o' & h' & L' & Er & O' & P & K' & KU' & G).
  { eapply owns_perm; [apply (hall_split _ _ _ E) | exact O]. }
  unfold with_obj. rewrite E, Er. cbn. eexists. split; [reflexivity | ]. split.
  - cbn [w_heap w_objs w_count]. eapply owns_perm; [ | exact O']. rewrite P. symmetry. apply (hall_put _ _ _ _ E).
  - cbn. now apply (gentle_shape _ _ _ o).
Qed.

Lemma gentle_refl o : obj_ok o -> gentle o o.
Proof. intro K. split; [reflexivity | ]. split; [auto | ]. intro E. right. split; [exact E | now apply idx_none]. Qed.

Lemma gentle_parts o o' : obj_ok o -> omask o' = omask o -> pos o' = pos o -> idx o' = idx o -> ncells o' = ncells o -> store o' = store o -> gentle o o'.
Proof. intros K A B C D E. split; [exact A | ]. split; [auto | ]. intro X. right. split; [congruence | ]. rewrite C. now apply idx_none. Qed.

Lemma nth_split_list {A} (l : list A) s u : nth_error l s = Some u -> l = firstn s l ++ u :: skipn (S s) l.
Proof.
  revert s. induction l as [ | a t IH]; intros [ | s]; cbn; try discriminate.
  - intro E. injection E as ->. reflexivity.
  - intro E. f_equal. exact (IH s E).
Qed.

Lemma safe_in_sub f s o F :
  obj_ok o -> s < length (subs o) ->
  (forall u G, sub_ok u -> safe (f u) (held_sub u ++ G) (fun v L' => Permutation L' (held_sub v ++ G) /\ sub_ok v)) ->
  safe (in_sub f s o) (held_obj o ++ F) (fun o' L' => Permutation L' (held_obj o' ++ F) /\ exists us, o' = set_subs o us /\ Forall sub_ok us).
Proof.
  intros K L H. unfold in_sub. destruct (nth_error (subs o) s) as [u | ] eqn:E.
  2: { apply nth_error_None in E. lia. }
  assert (Sp := nth_split_list _ _ _ E). set (a := firstn s (subs o)) in *. set (b := skipn (S s) (subs o)) in *.
  assert (Fa := k_subs o K). rewrite Sp in Fa. apply Forall_app in Fa. destruct Fa as (Fa & Fb). inversion Fb; subst.
  eapply safe_let.
  - eapply safe_perm; [ | apply (H u (bare o ++ flat_map held_sub a ++ flat_map held_sub b ++ F)); assumption].
    rewrite held_bare. rewrite Sp. rewrite flat_map_app. cbn [flat_map]. psolve.
  - cbn beta. intros v L' (P & Kv). apply safe_ret. split.
    + rewrite held_subs. fold (bare o). rewrite flat_map_app. cbn [flat_map]. psolve.
    + exists (a ++ v :: b). split; [reflexivity | ]. apply Forall_app. split; [exact Fa | ]. now constructor.
Qed.

Lemma orderly_add w (m : M obj) :
  orderly w ->
  (safe m (hall (w_objs w)) (fun o L' => Permutation L' (held_obj o ++ hall (w_objs w)) /\ obj_ok o /\ un o
     /\ forall j, omask o = Some j -> exists q, objof (w_objs w) j = Some q /\ omask q = None /\ (own_positions o \/ borrows o q))) ->
  exists w', add_obj w m = Ok w' /\ orderly w'.
Proof.
  intros (O & S) H. destruct (H _ O) as (o & h' & L' & Er & O' & P & K & KU & Mk).
  unfold add_obj. rewrite Er. cbn. eexists. split; [reflexivity | ]. split; cbn [w_heap w_objs w_count].
  - eapply owns_perm; [ | exact O']. rewrite P. symmetry. apply hall_app.
  - now apply shape_add.
Qed.

Lemma new_ok (two : bool) n lyrs c e mk b : 1 <= n -> 1 <= lyrs ->
  obj_ok (mkObj (if two then None else Some b) (if two then Some b else None) None None c false two false n lyrs n (Some (repeat None 6)) [] mk e).
Proof.
  intros A B. constructor; cbn; auto; try (intros ->; reflexivity).
  intros _ l E. injection E as <-. repeat constructor.
Qed.

Lemma FromArray_step w n : orderly w -> 1 <= n -> exists w', add_obj w (FromArray n) = Ok w' /\ orderly w'.
Proof.
  intros W Hn. apply orderly_add; auto. unfold FromArray. apply safe_bind. apply safe_new; [exact Hn | ]. intro b. apply safe_ret. split.
  - unfold held_obj. cbn [d1 d2 pos idx store ncells nlyrs stats subs held_stats flat_map repeat held app]. reflexivity.
  - split; [apply (new_ok false n 1 false false None b); auto | ]. split.
    + intros _. split; [right; split; reflexivity | ]. right. auto.
    + cbn. discriminate.
Qed.
Lemma FromArray2D_step w n l : orderly w -> 1 <= n -> 1 <= l -> exists w', add_obj w (FromArray2D n l) = Ok w' /\ orderly w'.
Proof.
  intros W Hn Hl. apply orderly_add; auto. unfold FromArray2D. apply safe_bind. apply safe_new; [exact Hn | ]. intro b. apply safe_ret. split.
  - unfold held_obj. cbn [d1 d2 pos idx store ncells nlyrs stats subs held_stats flat_map repeat held app]. reflexivity.
  - split; [apply (new_ok true n l false false None b); auto | ]. split.
    + intros _. split; [right; split; reflexivity | ]. right. auto.
    + cbn. discriminate.
Qed.

Lemma masked_by_other l n i o j m : shape l n -> objof l i = Some o -> omask o = Some j -> objof l j = Some m -> omask m = None -> j <> i.
Proof. intros _ E Ej A B ->. rewrite E in A. injection A as <-. congruence. Qed.

Lemma CopyNew_step w j s : orderly w -> objof (w_objs w) j = Some s -> copyable s -> exists w', add_obj w (CopyCtor s) = Ok w' /\ orderly w'.
Proof.
  intros W E C. apply orderly_add; auto. assert (W0 := W). destruct W0 as (O & S). destruct (s_ok _ _ S j s E) as (K & KU).
  unfold CopyCtor. eapply safe_cons.
  - change (hall (w_objs w)) with (held_obj (blank false) ++ hall (w_objs w)). apply safe_Copy; auto.
    + apply target_blank.
    + cbn. discriminate.
    + intros _ _. cbn. split; [reflexivity | discriminate].
    + intros y Hy. eapply Permutation_in; [symmetry; apply (hall_split _ _ _ E) | ]. apply in_or_app. now left.
    + now apply (world_seen w j).
  - cbn beta. intros o' L' (P & K' & KU' & EM & OW). split; [exact P | ]. split; [exact K' | ]. split; [exact KU' | ].
    intros q Eq. rewrite EM in Eq. destruct (s_mask _ _ S j s q E Eq) as (m & A & B & _). exists m. auto.
Qed.

Lemma CopyTo_step w i o j s :
  orderly w -> i <> j -> objof (w_objs w) i = Some o -> objof (w_objs w) j = Some s ->
  own_positions o -> copyable s -> (is2d o = true -> is2d s = true) ->
  (scalc s = true -> is2d s = true -> scalc o = false /\ stats o <> None) -> nobodys_mask w i ->
  exists w', with_obj w i (fun o => Copy o s) = Ok w' /\ orderly w'.
Proof.
  intros W N Ei Ej OW C T2 TS NM. assert (W0 := W). destruct W0 as (O & S).
  destruct (s_ok _ _ S i o Ei) as (K & KU). destruct (s_ok _ _ S j s Ej) as (Ks & KUs).
  assert (NMs : omask s <> Some i) by exact (NM j s Ej).
  assert (Sd : objof (objdrop (w_objs w) i) j = Some s).
  { rewrite objof_drop by exact (s_ids _ _ S). destruct (Nat.eqb_spec j i); [congruence | exact Ej]. }
  assert (Is : incl (held_obj s) (hall (objdrop (w_objs w) i))).
  { intros y Hy. eapply Permutation_in; [symmetry; apply (hall_split _ _ _ Sd) | ]. apply in_or_app. now left. }
  assert (Ss : seen s (hall (objdrop (w_objs w) i))).
  { destruct (omask s) as [q | ] eqn:EM.
    - destruct (s_mask _ _ S j s q Ej EM) as (m & A & B & [[X | (X & Y)] | (C1 & C2 & C3)]).
      + now apply own_seen.
      + unfold seen. rewrite X, Y. intros y [].
      + assert (Md : objof (objdrop (w_objs w) i) q = Some m).
        { rewrite objof_drop by exact (s_ids _ _ S). destruct (Nat.eqb_spec q i); [congruence | exact A]. }
        unfold seen. rewrite C1, C2, C3. destruct (s_ok _ _ S q m A) as (Km & KUm).
        destruct (KUm B) as ([X | (X & Y)] & _).
        * apply (own_seen m); [exact X | ]. intros y Hy. eapply Permutation_in; [symmetry; apply (hall_split _ _ _ Md) | ]. apply in_or_app. now left.
        * rewrite X, Y. intros y [].
    - destruct (KUs EM) as ([X | (X & Y)] & _).
      + now apply own_seen.
      + unfold seen. rewrite X, Y. intros y []. }
  destruct (safe_Copy o s (hall (objdrop (w_objs w) i)) (target_ok o K OW) Ks KUs C T2 TS Is Ss (w_heap w)) as (o' & h' & L' & Er & O' & P & K' & KU' & EM & OW').
  { eapply owns_perm; [apply (hall_split _ _ _ Ei) | exact O]. }
  unfold with_obj. rewrite Ei, Er. cbn. eexists. split; [reflexivity | ]. split; cbn [w_heap w_objs w_count].
  - eapply owns_perm; [ | exact O']. rewrite P. symmetry. apply (hall_put _ _ _ _ Ei).
  - apply (shape_put _ _ _ o); auto.
    + intros q Eq. rewrite EM in Eq. split; [congruence | ]. destruct (s_mask _ _ S j s q Ej Eq) as (m & A & B & _). exists m. auto.
    + intros q x Eq Nq Em. exfalso. exact (NM q x Eq Em).
Qed.

(** A mask gets positions. *)
Lemma gentle_mask m m' : obj_ok m -> omask m = None -> omask m' = None -> un m' -> (pos m <> None -> m' = m) -> gentle m m'.
Proof.
  intros K U U' KU' Same. split; [congruence | ]. split.
  - intro N. rewrite (Same N). auto.
  - intros _. now apply KU'.
Qed.

Lemma masking_step w i o0 j m (o : obj) l :
  orderly w -> objof (w_objs w) i = Some o0 -> omask o0 = Some j -> objof (w_objs w) j = Some m -> omask m = None ->
  held_obj o = held_obj o0 -> omask o = Some j -> obj_ok o -> own_positions o -> readable o -> valid o = true -> valid m = true -> lie_ok l (ext o) m ->
  exists r o' m' h', Masking l o m (w_heap w) = Ok (r, o', m', h') /\ orderly (mkWorld h' (w_count w) (objput (objput (w_objs w) j m') i o')).
Proof.
  intros W Ei Ej A B EH Em K OW RD V VM LO. assert (W0 := W). destruct W0 as (O & S).
  destruct (s_ok _ _ S j m A) as (Km & KUm). assert (N := masked_by_other _ _ _ _ _ _ S Ei Ej A B).
  assert (Ed : objof (objdrop (w_objs w) j) i = Some o0).
  { rewrite objof_drop by exact (s_ids _ _ S). destruct (Nat.eqb_spec i j); [congruence | exact Ei]. }
  set (F := hall (objdrop (objdrop (w_objs w) j) i)).
  assert (Hs := hall_split _ _ _ A). assert (Hs2 := hall_split _ _ _ Ed).
  destruct (safe_Masking l o m F K OW RD ltac:(congruence) V Km KUm B VM LO (w_heap w)) as (((r, o'), m') & h' & L' & Er & O' & P & K' & KU' & EM & Km' & KUm' & Um' & Same & BR).
  { eapply owns_perm; [ | exact O]. unfold F. rewrite EH. psolve. }
  exists r, o', m', h'. split; [exact Er | ].
  assert (Sh : shape (objput (w_objs w) j m') (w_count w)).
  { apply (gentle_shape _ _ _ m); auto. now apply gentle_mask. }
  assert (Ei' : objof (objput (w_objs w) j m') i = Some o0) by (rewrite objof_put_ne; auto).
  split; cbn [w_heap w_objs w_count].
  - eapply owns_perm; [ | exact O'].
    assert (Q1 := hall_put _ _ _ o' Ei'). assert (Q2 := hall_put _ _ _ m' A).
    assert (Q3 := hall_split _ _ _ Ei'). unfold F in *. 
    assert (Q4 : Permutation (hall (objdrop (objput (w_objs w) j m') i)) (held_obj m' ++ hall (objdrop (objdrop (w_objs w) j) i))).
    { clear - Q3 Q2 Hs2. apply (Permutation_app_inv_l (held_obj o0)). psolve. }
    clear - P Q1 Q4. psolve.
  - apply (shape_put _ _ _ o0); auto.
    + intros q Eq. destruct EM as [EM | EM]; [ | congruence]. assert (q = j) by congruence. subst q. split; [exact N | ].
      exists m'. rewrite (objof_put_eq _ _ _ _ A). split; [reflexivity | ]. split; [exact Um' | ].
      destruct BR as [X | (_ & X)]; auto.
    + intros q x Eq Nq Ex. exfalso.
      destruct (Nat.eq_dec j q) as [<- | D].
      * rewrite (objof_put_eq _ _ _ _ A) in Eq. injection Eq as <-. congruence.
      * rewrite objof_put_ne in Eq by exact D. destruct (s_mask _ _ S q x i Eq Ex) as (z & Z1 & Z2 & _). rewrite Ei in Z1. injection Z1 as <-. congruence.
Qed.

(** ** One call *)
Theorem careful_step w c : orderly w -> careful w c -> exists w', step w c = Ok w' /\ orderly w'.
Proof.
  intros W C. assert (W0 := W). destruct W0 as (O & S). destruct c; cbn [careful] in C; cbn [step].
  - now apply FromArray_step.
  - destruct C. now apply FromArray2D_step.
  - destruct C as (o & E & R). apply (orderly_with w i o); auto. intros K KU F Sn.
    apply safe_bind. apply safe_Access; auto; [isolve | apply lent_seen; [exact Sn | isolve] | ].
    apply safe_ret. split; [reflexivity | ]. split; [exact K | ]. split; [exact KU | now apply gentle_refl].
  - destruct C as ((o & E & U) & Hk). apply (orderly_with w i o); auto. intros K KU F Sn. rewrite U.
    eapply safe_cons; [apply safe_SetCalcPositions; auto | ]. cbn beta. intros o' L' (P & K' & KU' & Kp & Same & _).
    split; [exact P | ]. split; [exact K' | ]. split; [exact KU' | ].
    assert (omask o' = None) by (destruct Kp as (_&_&_&_&_&_&X&_); congruence). now apply gentle_mask.
  - (* CalcMasked *)
    destruct C as (o & E & OW & G & j & Ej & m & A & V & LO). unfold with_mask. rewrite E, Ej, A.
    destruct (s_mask _ _ S i o j E Ej) as (m0 & A0 & B & _). rewrite A in A0. injection A0 as <-.
    destruct (valid o) eqn:Vo; cbn [negb orb]; [ | eauto].
    destruct (calc o && (negb (null (pos o)) || negb (null (idx o)))); [eauto | ].
    rewrite B. destruct (s_ok _ _ S i o E) as (K & KU).
    destruct (masking_step w i o j m (set_places o (pos o) (idx o) true (store o) (ncells o)) l) as (r & o' & m' & h' & Er & W'); auto.
    { destruct K. constructor; auto. }
    { right. exact G. }
    rewrite Er. cbn. eauto.
  - destruct C as ((o & E & U) & Hk & Hn). apply (orderly_with w i o); auto. intros K KU F Sn.
    eapply safe_cons; [apply safe_BuildSubSet; auto | ].
    { destruct U as [U | (U & _)]; auto. }
    { apply lent_seen; [exact Sn | isolve]. }
    cbn beta. intros o' L' (P & K' & KU' & EM & Kp).
    split; [exact P | ]. split; [exact K' | ]. split; [exact KU' | ]. split; [exact EM | ]. split; [exact Kp | ].
    intro X. destruct U as [U | (U & _)]; [ | congruence]. apply KU'. congruence.
  - destruct C as ((o & E & U) & Hk & Hn). apply (orderly_with w i o); auto. intros K KU F Sn. unfold RebuildSubSet.
    apply safe_bind. apply safe_ReleaseSubset. intros L1 P1. eapply safe_perm; [exact P1 | ].
    eapply safe_cons; [apply (safe_BuildSubSet k ns (set_subs o []) F); auto | ].
    { apply obj_ok_subs; auto. }
    { destruct U as [U | (U & _)]; auto. }
    { apply (lent_seen (set_subs o [])); [exact Sn | isolve]. }
    cbn beta. intros o' L' (P & K' & KU' & EM & Kp).
    split; [exact P | ]. split; [exact K' | ]. split; [exact KU' | ]. split; [exact EM | ]. split; [exact Kp | ].
    intro X. destruct U as [U | (U & _)]; [ | congruence]. apply KU'. cbn in EM. congruence.
  - destruct C as (o & E & _). apply (orderly_with w i o); auto. intros K KU F Sn.
    apply safe_ReleaseSubset. intros L1 P1. split; [exact P1 | ]. split; [now apply obj_ok_subs | ]. split; [exact KU | ]. now apply gentle_parts.
  - destruct C as (o & E & Hs). apply (orderly_with w i o); auto. intros K KU F Sn.
    eapply safe_cons; [apply safe_in_sub; auto; intros; now apply safe_SetSubData | ]. cbn beta. intros o' L' (P & us & -> & Us).
    split; [exact P | ]. split; [now apply obj_ok_subs | ]. split; [exact KU | ]. now apply gentle_parts.
  - destruct C as (o & E & Hs). apply (orderly_with w i o); auto. intros K KU F Sn.
    eapply safe_cons; [apply safe_in_sub; auto; intros; now apply safe_SetSubData2 | ]. cbn beta. intros o' L' (P & us & -> & Us).
    split; [exact P | ]. split; [now apply obj_ok_subs | ]. split; [exact KU | ]. now apply gentle_parts.
  - destruct C as (o & E & V). apply (orderly_with w i o); auto. intros K KU F Sn.
    eapply safe_cons; [apply safe_CalculateStatistics; auto | ]. cbn beta. intros o' L' (P & K' & st & c & ->).
    split; [exact P | ]. split; [exact K' | ]. split; [exact KU | ]. now apply gentle_parts.
  - destruct C as (o & E & V). apply (orderly_with w i o); auto. intros K KU F Sn.
    eapply safe_cons; [apply safe_UpdateStatistics; auto | ]. cbn beta. intros o' L' (P & K' & st & c & ->).
    split; [exact P | ]. split; [exact K' | ]. split; [exact KU | ]. now apply gentle_parts.
  - destruct C as (s & E & Cp). rewrite E. now apply (CopyNew_step w j).
  - destruct C as (N & (o & Ei & OW & s & Ej & Cp & T2 & TS) & NM). destruct (Nat.eqb_spec i j); [congruence | ]. rewrite Ej.
    now apply (CopyTo_step w i o j).
  - (* ReadMasked *)
    destruct C as (Hn & Hl & m & A & B & V & LO). rewrite A, B.
    destruct (s_ok _ _ S j m A) as (Km & KUm).
    set (mk := fun b => mkObj (if two then None else Some b) (if two then Some b else None) None None c false two false n lyrs n (Some (repeat None 6)) [] (Some j) e).
    assert (Sf : safe (let! b := new n in Masking l (mk b) m) (held_obj m ++ hall (objdrop (w_objs w) j)) (fun r L' =>
      let '(_, o', m') := r in
      Permutation L' (held_obj o' ++ held_obj m' ++ hall (objdrop (w_objs w) j)) /\ obj_ok o' /\ un o' /\ (omask o' = Some j \/ omask o' = None)
      /\ obj_ok m' /\ un m' /\ omask m' = None /\ (pos m <> None -> m' = m)
      /\ (own_positions o' \/ (omask o' = Some j /\ borrows o' m')))).
    { apply safe_bind. apply safe_new; [exact Hn | ]. intro b. eapply safe_perm; [ | apply (safe_Masking l (mk b) m); auto].
      - unfold mk. unfold held_obj at 2. cbn [d1 d2 pos idx store ncells nlyrs stats subs held_stats flat_map repeat held app]. destruct two; cbn [held]; psolve.
      - now apply new_ok.
      - right. split; reflexivity.
      - right. reflexivity.
      - cbn. discriminate.
      - unfold valid, mk. cbn. destruct two; reflexivity. }
    destruct (Sf (w_heap w)) as (((r, o'), m') & h' & L' & Er & O' & P & K' & KU' & EM & Km' & KUm' & Um' & Same & BR).
    { eapply owns_perm; [ | exact O]. apply (hall_split _ _ _ A). }
    unfold mk in Er. rewrite Er. cbn. eexists. split; [reflexivity | ]. split; cbn [w_heap w_objs w_count].
    + eapply owns_perm; [ | exact O'].
      assert (Q1 := hall_put _ _ _ m' A). assert (Q2 := hall_app (objput (w_objs w) j m') (w_count w) o'). psolve.
    + apply shape_add; auto.
      * apply (gentle_shape _ _ _ m); auto. now apply gentle_mask.
      * intros q Eq. assert (q = j) by (destruct EM; congruence). subst q. exists m'. rewrite (objof_put_eq _ _ _ _ A).
        split; [reflexivity | ]. split; [exact Um' | ]. destruct BR as [X | (_ & X)]; auto.
  - (* MaskAgain *)
    destruct C as (o & E & OW & R & j & Ej & m & A & V & LO). unfold with_mask. rewrite E, Ej, A.
    destruct (s_mask _ _ S i o j E Ej) as (m0 & A0 & B & _). rewrite A in A0. injection A0 as <-.
    destruct (valid o) eqn:Vo; cbn [negb orb]; [ | eauto].
    destruct (ext o) eqn:Ex; [eauto | ].
    rewrite B. destruct (s_ok _ _ S i o E) as (K & KU).
    destruct (masking_step w i o j m (set_ext o true) l) as (r & o' & m' & h' & Er & W'); auto.
    { destruct K. constructor; auto. }
    rewrite Er. cbn. eauto.
  - (* WithMask *)
    destruct C as ((m & A & B & V) & Hk & Hl). rewrite A. destruct (s_ok _ _ S j m A) as (Km & KUm).
    destruct (safe_FromMask two k n lyrs j m (hall (objdrop (w_objs w) j)) Km KUm B V Hk Hl (w_heap w)) as ((o', m') & h' & L' & Er & O' & P & K' & EM & Km' & KUm' & Um' & Same & BR).
    { eapply owns_perm; [ | exact O]. apply (hall_split _ _ _ A). }
    cbn [fst snd] in *. rewrite Er. cbn. eexists. split; [reflexivity | ]. split; cbn [w_heap w_objs w_count].
    + eapply owns_perm; [ | exact O'].
      assert (Q1 := hall_put _ _ _ m' A). assert (Q2 := hall_app (objput (w_objs w) j m') (w_count w) o'). psolve.
    + apply shape_add; auto.
      * apply (gentle_shape _ _ _ m); auto. now apply gentle_mask.
      * intro X. congruence.
      * intros q Eq. assert (q = j) by congruence. subst q. exists m'. rewrite (objof_put_eq _ _ _ _ A).
        split; [reflexivity | ]. split; [exact Um' | ]. now right.
  - contradiction.
  - destruct C as ((o & E & _) & NM). rewrite E. destruct (s_ok _ _ S i o E) as (K & KU).
    destruct (safe_Destroy o (hall (objdrop (w_objs w) i)) (fun _ L' => Permutation L' (hall (objdrop (w_objs w) i))) K ltac:(auto) (w_heap w)) as (u & h' & L' & Er & O' & P).
    { eapply owns_perm; [ | exact O]. apply (hall_split _ _ _ E). }
    rewrite Er. cbn. eexists. split; [reflexivity | ]. split; cbn [w_heap w_objs w_count].
    + eapply owns_perm; [exact P | exact O'].
    + constructor.
      * apply ids_drop_nodup. exact (s_ids _ _ S).
      * intros k I. apply ids_drop_in in I. now apply (s_below _ _ S).
      * intros k q. rewrite objof_drop by exact (s_ids _ _ S). destruct (Nat.eqb k i); [discriminate | apply (s_ok _ _ S)].
      * intros k q j. rewrite objof_drop by exact (s_ids _ _ S). destruct (Nat.eqb k i); [discriminate | ]. intros Eq Ej.
        destruct (s_mask _ _ S k q j Eq Ej) as (m & A & B). exists m. rewrite objof_drop by exact (s_ids _ _ S).
        destruct (Nat.eqb_spec j i) as [-> | ]; [ | auto]. exfalso. exact (NM k q Eq Ej).
Qed.

Theorem careful_run_orderly cs : forall w, orderly w -> careful_run w cs -> exists w', run w cs = Ok w' /\ orderly w'.
Proof.
  induction cs as [ | c t IH]; intros w W C; cbn [run careful_run] in *.
  - eauto.
  - destruct C as (C1 & C2). destruct (careful_step w c W C1) as (w' & E & W'). rewrite E. cbn. apply IH; auto.
Qed.
