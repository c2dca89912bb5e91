(** Proofs about releasing several arrays in one call. *)
From Coq Require Import ZArith List Bool Lia.
From Verif Require Import Base RasterModel ArrayModel ArrayProofs BatchModel.
Import ListNotations.
Open Scope Z_scope.
Open Scope outcome_scope.

Section Batch.
Context {T : Type}.

Definition freed (h : heap T) (bs : list nat) : heap T := fold_left (fun h b => upd h b None) bs h.
Lemma upd_len {A} (l : list A) n x : length (upd l n x) = length l.
Proof. revert n. induction l; intros [|n]; cbn; auto. Qed.
Lemma freed_length bs : forall h, length (freed h bs) = length h.
Proof. induction bs as [|b bs IH]; intros h; [reflexivity|]. unfold freed in *. cbn [fold_left]. rewrite IH. apply upd_len. Qed.
Lemma freed_out bs : forall h b, ~ In b bs -> nth_error (freed h bs) b = nth_error h b.
Proof.
  induction bs as [|c bs IH]; intros h b H; [reflexivity|]. unfold freed in *. cbn [fold_left]. rewrite IH by (intros I; apply H; right; exact I).
  apply nth_upd_other. intros ->. apply H. left. reflexivity.
Qed.
Lemma freed_in bs : forall h b, In b bs -> (b < length h)%nat -> nth_error (freed h bs) b = Some None.
Proof.
  induction bs as [|c bs IH]; intros h b H L; [destruct H|]. unfold freed in *. cbn [fold_left].
  destruct (in_dec Nat.eq_dec b bs) as [I|I]; [apply IH; [exact I|rewrite upd_len; exact L]|].
  destruct H as [->|H]; [|contradiction]. fold (freed (upd h b None) bs). rewrite freed_out by exact I. apply nth_upd_same, L.
Qed.
Lemma freed_app bs cs h : freed h (bs ++ cs) = freed (freed h bs) cs.
Proof. apply fold_left_app. Qed.

(** One array and the blocks it consists of. *)
Variable rel : heap T -> pointer -> outcome (heap T * pointer).
Variable good : heap T -> pointer -> list nat -> Prop.
Hypothesis good_rel : forall h p bs, good h p bs -> p <> None /\ rel h p = Ok (freed h bs, None).
Hypothesis good_same : forall h h' p bs, good h p bs -> (forall b, In b bs -> nth_error h' b = nth_error h b) -> good h' p bs.

Lemma rest_ok ps post : forall h, Forall (fun a => good h (fst a) (snd a)) ps -> NoDup (concat (map snd ps)) ->
  release_rest rel h (map fst ps ++ None :: post) = Ok (freed h (concat (map snd ps))).
Proof.
  induction ps as [|[p bs] ps IH]; intros h F N; [reflexivity|]. cbn [map fst snd app concat] in *.
  inversion F as [|? ? G F']; subst. cbn [fst snd] in G. destruct (good_rel _ _ _ G) as [NP R].
  destruct p as [p|]; [|congruence]. cbn [release_rest]. rewrite R. cbn [obind fst]. rewrite freed_app. apply IH.
  - rewrite Forall_forall in *. intros a I. eapply good_same; [apply F', I|]. intros b B. apply freed_out. intros C.
    clear -N I B C. induction bs as [|x bs IHb]; [destruct C|]. cbn [app] in N. inversion N as [|? ? N1 N2]; subst.
    destruct C as [->|C]; [|apply IHb; assumption]. apply N1, in_or_app. right. apply in_concat. exists (snd a). split; [apply in_map, I|exact B].
  - clear -N. induction bs as [|x bs IHb]; [exact N|]. cbn [app] in N. inversion N. auto.
Qed.

(** Without the closing null pointer. *)
Lemma rest_open ps : forall h, Forall (fun a => good h (fst a) (snd a)) ps -> NoDup (concat (map snd ps)) ->
  release_rest rel h (map fst ps) = UB.
Proof.
  induction ps as [|[p bs] ps IH]; intros h F N; [reflexivity|]. cbn [map fst snd app concat] in *.
  inversion F as [|? ? G F']; subst. cbn [fst snd] in G. destruct (good_rel _ _ _ G) as [NP R].
  destruct p as [p|]; [|congruence]. cbn [release_rest]. rewrite R. cbn [obind fst]. apply IH.
  - rewrite Forall_forall in *. intros a I. eapply good_same; [apply F', I|]. intros b B. apply freed_out. intros C.
    clear -N I B C. induction bs as [|x bs IHb]; [destruct C|]. cbn [app] in N. inversion N as [|? ? N1 N2]; subst.
    destruct C as [->|C]; [|apply IHb; assumption]. apply N1, in_or_app. right. apply in_concat. exists (snd a). split; [apply in_map, I|exact B].
  - clear -N. induction bs as [|x bs IHb]; [exact N|]. cbn [app] in N. inversion N. auto.
Qed.
End Batch.

Section Two.
Context {T : Type}.
(** A one-dimensional array, a two-dimensional array with a row. *)
Definition good1 (h : heap T) (p : pointer) (bs : list nat) : Prop := exists b c, p = Some (b, 0) /\ bs = [b] /\ nth_error h b = Some (Some c).
Definition good2 (h : heap T) (p : pointer) (bs : list nat) : Prop :=
  exists rows cols pb pool M, mat h p rows cols pb pool M /\ 0 < rows /\ bs = [pool; pb].

Lemma good1_rel h p bs : good1 h p bs -> p <> None /\ Release1DArray h p = Ok (freed h bs, None).
Proof. intros (b & c & -> & -> & E). split; [discriminate|]. unfold Release1DArray. rewrite (free_ok _ _ _ E). reflexivity. Qed.
Lemma good1_same h h' p bs : good1 h p bs -> (forall b, In b bs -> nth_error h' b = nth_error h b) -> good1 h' p bs.
Proof. intros (b & c & -> & -> & E) H. exists b, c. split; [reflexivity|]. split; [reflexivity|]. rewrite H by (left; reflexivity). exact E. Qed.
Lemma good2_rel h p bs : good2 h p bs -> p <> None /\ Release2DArray h p = Ok (freed h bs, None).
Proof.
  intros (rows & cols & pb & pool & M & MT & R & ->). pose proof MT as (-> & _). split; [discriminate|]. rewrite (Release2D_ok _ _ _ _ _ _ _ MT R). reflexivity.
Qed.
Lemma good2_same h h' p bs : good2 h p bs -> (forall b, In b bs -> nth_error h' b = nth_error h b) -> good2 h' p bs.
Proof.
  intros (rows & cols & pb & pool & M & (P1 & P2 & P3 & P4 & P5 & P6) & R & ->) H. exists rows, cols, pb, pool, M.
  split; [|auto]. unfold mat. rewrite !H by (cbn; auto). auto 10.
Qed.
End Two.
