(** C118 releasing several arrays in one call, C119 null pointers and missing ends
    among them. *)
From Coq Require Import ZArith List Bool Lia.
From Verif Require Import Base RasterModel ArrayModel ArrayProofs BatchModel BatchProofs.
Import ListNotations.
Open Scope Z_scope.
Open Scope outcome_scope.

(** ** C118. Distinct live arrays, ended by a null pointer: exactly their memory is
    released, once. *)
Theorem C118_1d : forall (T : Type) (h : heap T) b bs,
  NoDup (b :: bs) -> (forall x, In x (b :: bs) -> exists c, nth_error h x = Some (Some c)) ->
  exists h', BatchRelease1DArray h (Some (b, 0)) (map (fun x => Some (x, 0) : pointer) bs ++ [None]) = Ok (h', None) /\
    length h' = length h /\ (forall x, In x (b :: bs) -> nth_error h' x = Some None) /\ (forall x, ~ In x (b :: bs) -> nth_error h' x = nth_error h x).
Proof.
  intros T h b bs N L. exists (freed h (b :: bs)). split.
  - destruct (L b (or_introl eq_refl)) as [c E]. unfold BatchRelease1DArray, Release1DArray. rewrite (free_ok _ _ _ E). cbn [obind fst snd].
    set (ps := map (fun x => (Some (x, 0) : pointer, [x])) bs).
    assert (E1 : map (fun x => Some (x, 0) : pointer) bs = map fst ps) by (unfold ps; rewrite map_map; reflexivity).
    assert (E2 : concat (map snd ps) = bs) by (unfold ps; rewrite map_map; cbn [snd]; clear; induction bs; cbn; congruence).
    rewrite E1. match goal with |- obind (release_rest ?f ?hh ?l) _ = _ => assert (RR : release_rest f hh l = Ok (freed hh (concat (map snd ps)))); [refine (rest_ok Release1DArray good1 good1_rel good1_same ps [] _ _ _)|rewrite RR, E2; reflexivity] end; [|rewrite E2; inversion N; assumption].
    unfold ps. apply Forall_map, Forall_forall. intros x I. destruct (L x (or_intror I)) as [c' E']. exists x, c'. cbn [fst snd]. split; [reflexivity|]. split; [reflexivity|].
    rewrite nth_upd_other; [exact E'|]. intros ->. inversion N. contradiction.
  - split; [apply freed_length|]. split; [|intros; apply freed_out; assumption].
    intros x I. apply freed_in; [exact I|]. destruct (L x I) as [c E]. apply nth_error_Some. congruence.
Qed.
Print Assumptions C118_1d.

Theorem C118_2d : forall (T : Type) (h : heap T) a l,
  let blocks := flat_map (fun a => [snd a; fst a]) (a :: l) in
  NoDup blocks -> (forall x, In x (a :: l) -> exists rows cols M, 0 < rows /\ mat h (Some (fst x, 0)) rows cols (fst x) (snd x) M) ->
  exists h', BatchRelease2DArray h (Some (fst a, 0)) (map (fun x => Some (fst x, 0) : pointer) l ++ [None]) = Ok (h', None) /\
    length h' = length h /\ (forall x, In x blocks -> nth_error h' x = Some None) /\ (forall x, ~ In x blocks -> nth_error h' x = nth_error h x).
Proof.
  intros T h a l blocks N L. exists (freed h blocks). split.
  - destruct (L a (or_introl eq_refl)) as (rows & cols & M & R & MT). unfold BatchRelease2DArray. rewrite (Release2D_ok _ _ _ _ _ _ _ MT R). cbn [obind fst snd].
    set (ps := map (fun x : nat * nat => (Some (fst x, 0) : pointer, [snd x; fst x])) l).
    assert (E1 : map (fun x : nat * nat => Some (fst x, 0) : pointer) l = map fst ps) by (unfold ps; rewrite map_map; reflexivity).
    assert (E2 : concat (map snd ps) = flat_map (fun a => [snd a; fst a]) l) by (unfold ps; rewrite map_map, flat_map_concat_map; reflexivity).
    unfold blocks in N. cbn [flat_map app] in N. inversion N as [|? ? N1 N2]; subst. inversion N2 as [|? ? N3 N4]; subst.
    rewrite E1. match goal with |- obind (release_rest ?f ?hh ?l) _ = _ => assert (RR : release_rest f hh l = Ok (freed hh (concat (map snd ps)))); [refine (rest_ok Release2DArray good2 good2_rel good2_same ps [] _ _ _)|rewrite RR, E2; reflexivity] end; [|rewrite E2; assumption].
    unfold ps. apply Forall_map, Forall_forall. intros x I. destruct (L x (or_intror I)) as (r' & c' & M' & R' & MT').
    cbn [fst snd]. eapply good2_same; [exists r', c', (fst x), (snd x), M'; split; [exact MT'|]; split; [exact R'|reflexivity]|].
    intros b B. assert (IB : In b (flat_map (fun a => [snd a; fst a]) l)) by (apply in_flat_map; exists x; split; [exact I|exact B]).
    rewrite !nth_upd_other; [reflexivity| |]; intros ->; [apply N1; right; exact IB|apply N3, IB].
  - split; [apply freed_length|]. split; [|intros; apply freed_out; assumption].
    intros x I. apply freed_in; [exact I|]. unfold blocks in I. apply in_flat_map in I. destruct I as (y & Y & [<-|[<-|[]]]);
      destruct (L y Y) as (r' & c' & M' & _ & (_ & _ & _ & P4 & P5 & _)); apply nth_error_Some; congruence.
Qed.
Print Assumptions C118_2d.

Example C118_ex :
  let h := [Some [CVal 1]; Some [CVal 2]; Some [CVal 3]] : heap Z in
  BatchRelease1DArray h (Some (2%nat, 0)) [Some (0%nat, 0); None] = Ok ([None; Some [CVal 2]; None], None) /\
  exists h2 p2 h4 p4, Initialize2DArray true true [0%nat] ([] : heap Z) None 1 1 5 = Ok (h2, p2, true) /\ Initialize2DArray true true [0; 1]%nat h2 None 2 1 6 = Ok (h4, p4, true) /\
    BatchRelease2DArray h4 p2 [p4; None] = Ok ([None; None; None; None], None).
Proof. split; [reflexivity|]. do 4 eexists. split; [vm_compute; reflexivity|]. split; vm_compute; reflexivity. Qed.

(** ** C119. A null pointer among the arrays ends the list: what follows is
    not released, although releasing one array accepts a null pointer. *)
Theorem C119_null_refuted : forall (T : Type) (h : heap T) data pre post,
  BatchRelease1DArray h data (pre ++ None :: post) = BatchRelease1DArray h data (pre ++ [None]) /\
  BatchRelease2DArray h data (pre ++ None :: post) = BatchRelease2DArray h data (pre ++ [None]).
Proof.
  intros T h data pre post.
  assert (E : forall rel (h : heap T), release_rest rel h (pre ++ None :: post) = release_rest rel h (pre ++ [None])).
  { intros rel. induction pre as [|[p|] pre IH]; intros h0; [reflexivity| |reflexivity]. cbn [app release_rest].
    destruct (rel h0 (Some p)) as [r| |]; cbn [obind]; [apply IH|reflexivity|reflexivity]. }
  split; [unfold BatchRelease1DArray; destruct (Release1DArray h data) as [r| |]|unfold BatchRelease2DArray; destruct (Release2DArray h data) as [r| |]];
    cbn [obind]; rewrite ?E; reflexivity.
Qed.
Print Assumptions C119_null_refuted.

(** So every array after it stays allocated. *)
Theorem C119_leak_refuted : forall (T : Type) (h : heap T) b bs post lost,
  NoDup (b :: bs) -> (forall x, In x (b :: bs) -> exists c, nth_error h x = Some (Some c)) ->
  In (Some (lost, 0)) post -> ~ In lost (b :: bs) ->
  exists h', BatchRelease1DArray h (Some (b, 0)) (map (fun x => Some (x, 0) : pointer) bs ++ None :: post) = Ok (h', None) /\ nth_error h' lost = nth_error h lost.
Proof.
  intros T h b bs post lost N L _ NI. destruct (C118_1d T h b bs N L) as (h' & E & _ & _ & O). exists h'.
  split; [exact (eq_trans (proj1 (C119_null_refuted T h (Some (b, 0)) (map (fun x => Some (x, 0) : pointer) bs) post)) E)|apply O, NI].
Qed.
Print Assumptions C119_leak_refuted.

(** Without a null pointer at the end the call is undefined. *)
Theorem C119_open_refuted : forall (T : Type) (h : heap T) b bs,
  NoDup (b :: bs) -> (forall x, In x (b :: bs) -> exists c, nth_error h x = Some (Some c)) ->
  BatchRelease1DArray h (Some (b, 0)) (map (fun x => Some (x, 0) : pointer) bs) = UB.
Proof.
  intros T h b bs N L. destruct (L b (or_introl eq_refl)) as [c E]. unfold BatchRelease1DArray, Release1DArray. rewrite (free_ok _ _ _ E). cbn [obind fst snd].
  set (ps := map (fun x => (Some (x, 0) : pointer, [x])) bs).
  assert (E1 : map (fun x => Some (x, 0) : pointer) bs = map fst ps) by (unfold ps; rewrite map_map; reflexivity).
  assert (E2 : concat (map snd ps) = bs) by (unfold ps; rewrite map_map; cbn [snd]; clear; induction bs; cbn; congruence).
  rewrite E1. match goal with |- obind ?x _ = _ => assert (RR : x = UB); [refine (rest_open Release1DArray good1 good1_rel good1_same ps _ _ _)|rewrite RR; reflexivity] end; [|rewrite E2; inversion N; assumption].
  unfold ps. apply Forall_map, Forall_forall. intros x I. destruct (L x (or_intror I)) as [c' E']. exists x, c'. cbn [fst snd]. split; [reflexivity|]. split; [reflexivity|].
  rewrite nth_upd_other; [exact E'|]. intros ->. inversion N. contradiction.
Qed.
Print Assumptions C119_open_refuted.

Example C119_ex :
  let h := [Some [CVal 1]; Some [CVal 2]; Some [CVal 3]] : heap Z in
  BatchRelease1DArray h (Some (0%nat, 0)) [None; Some (2%nat, 0); None] = Ok ([None; Some [CVal 2]; Some [CVal 3]], None) /\
  BatchRelease1DArray h None [Some (2%nat, 0); None] = Ok ([Some [CVal 1]; Some [CVal 2]; None], None) /\
  BatchRelease1DArray h (Some (0%nat, 0)) [Some (1%nat, 0)] = UB.
Proof. repeat split. Qed.
