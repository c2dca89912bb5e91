(** List lemmas used by the proofs (no /repo counterpart). *)
From Coq Require Import ZArith List Bool Lia Permutation Sorted ZifyBool ZifyNat.
From Verif Require Import Base RasterModel.
Import ListNotations.
Open Scope Z_scope.

Lemma nth_error_ext {A} : forall (a b : list A),
  (forall i, nth_error a i = nth_error b i) -> a = b.
Proof.
  induction a as [|x a IH]; destruct b as [|y b]; intros H; auto.
  - specialize (H O); discriminate.
  - specialize (H O); discriminate.
  - pose proof (H O) as H0; cbn in H0. injection H0 as ->. f_equal. apply IH.
    intros i. exact (H (S i)).
Qed.

Lemma upd_length {A} : forall (a : list A) n v, length (upd a n v) = length a.
Proof. induction a; destruct n; cbn; intros; auto. Qed.

Lemma upd_nth {A} : forall (a : list A) n v i,
  nth_error (upd a n v) i =
  if (Nat.eqb i n) && (n <? length a)%nat then Some v else nth_error a i.
Proof.
  induction a as [|x a IH]; intros n v i.
  - cbn [upd length]. rewrite andb_comm. destruct n; cbn; destruct i; reflexivity.
  - destruct n, i; cbn [upd nth_error]; auto.
    rewrite IH. cbn [length]. destruct (Nat.eqb_spec i n), (Nat.eqb_spec (S i) (S n)); try lia; cbn [andb]; auto.
Qed.

Lemma upd_same {A} : forall (a : list A) n v, nth_error a n = Some v -> upd a n v = a.
Proof.
  induction a; destruct n; cbn; intros; try discriminate.
  - congruence.
  - f_equal; auto.
Qed.

Lemma upd_Forall {A} (P : A -> Prop) : forall (a : list A) n v, Forall P a -> P v -> Forall P (upd a n v).
Proof. induction a; destruct n; cbn; intros v H Hv; auto; inversion H; subst; constructor; auto. Qed.

Lemma upd_repeat_map {A} : forall (a : list A) n v w, upd (upd a n v) n w = upd a n w.
Proof. induction a; destruct n; cbn; intros; f_equal; auto. Qed.

Lemma aget_ok {A} : forall (a : list A) i v,
  0 <= i -> nth_error a (Z.to_nat i) = Some v -> aget a i = Ok v.
Proof. intros a i v Hi H. unfold aget. destruct (i <? 0) eqn:E; [lia|]. rewrite H; auto. Qed.

Lemma aget_inv {A} : forall (a : list A) i v,
  aget a i = Ok v -> 0 <= i /\ nth_error a (Z.to_nat i) = Some v.
Proof.
  unfold aget. intros a i v. destruct (i <? 0) eqn:E; try discriminate.
  destruct (nth_error a (Z.to_nat i)); intros H; inversion H; subst. split; auto; lia.
Qed.

Lemma aget_in {A} : forall (a : list A) i, 0 <= i < Z.of_nat (length a) -> exists v, aget a i = Ok v /\ In v a.
Proof.
  intros a i Hi. destruct (nth_error a (Z.to_nat i)) eqn:E.
  - exists a0. split; [apply aget_ok; auto; lia|eapply nth_error_In; eauto].
  - apply nth_error_None in E. lia.
Qed.

Lemma aset_ok {A} : forall (a : list A) i v,
  0 <= i < Z.of_nat (length a) -> aset a i v = Ok (upd a (Z.to_nat i) v).
Proof.
  intros. unfold aset. destruct (i <? 0) eqn:E; [lia|].
  destruct (Z.to_nat i <? length a)%nat eqn:F; [auto|lia].
Qed.

Lemma zseq_length : forall n, length (zseq n) = Z.to_nat n.
Proof. intros. unfold zseq. rewrite map_length, seq_length. auto. Qed.

Lemma zseq_In : forall n i, In i (zseq n) <-> 0 <= i < n.
Proof.
  intros. unfold zseq. rewrite in_map_iff. split.
  - intros (k & <- & H). apply in_seq in H. lia.
  - intros H. exists (Z.to_nat i). rewrite in_seq. lia.
Qed.

Lemma zseq_nth : forall n i, 0 <= i < n -> nth_error (zseq n) (Z.to_nat i) = Some i.
Proof.
  intros. unfold zseq. rewrite nth_error_map.
  rewrite (nth_error_nth' _ O); [|rewrite seq_length; lia].
  rewrite seq_nth by lia. cbn. f_equal; lia.
Qed.

Lemma zseq_nth_nat : forall n i, (i < Z.to_nat n)%nat -> nth_error (zseq n) i = Some (Z.of_nat i).
Proof. intros. rewrite <- (Nat2Z.id i) at 1. apply zseq_nth. lia. Qed.

Lemma zseq_S : forall n, 0 <= n -> zseq (n + 1) = zseq n ++ [n].
Proof.
  intros. unfold zseq. replace (Z.to_nat (n+1)) with (S (Z.to_nat n)) by lia.
  rewrite seq_S, map_app. cbn. repeat f_equal. lia.
Qed.

Lemma zseq_0 : forall n, n <= 0 -> zseq n = [].
Proof. intros. unfold zseq. replace (Z.to_nat n) with O by lia. auto. Qed.

Lemma zseq_app : forall a b, 0 <= a -> 0 <= b -> zseq (a + b) = zseq a ++ map (fun k => a + k) (zseq b).
Proof.
  intros a b Ha Hb. unfold zseq. rewrite Z2Nat.inj_add by lia. rewrite seq_app, map_app. f_equal.
  cbn. rewrite map_map.
  assert (forall s n, map Z.of_nat (seq (s + Z.to_nat a) n) = map (fun x => a + Z.of_nat x) (seq s n)).
  { intros s n. revert s. induction n; cbn; intros; auto. f_equal; [lia|]. apply (IHn (S s)). }
  specialize (H O (Z.to_nat b)). cbn in H. auto.
Qed.

Lemma StronglySorted_zseq : forall n, StronglySorted Z.lt (zseq n).
Proof.
  intros n. unfold zseq.
  assert (forall m s, StronglySorted Z.lt (map Z.of_nat (seq s m))).
  { induction m; cbn; intros; constructor; auto.
    apply Forall_forall. intros x H. apply in_map_iff in H. destruct H as (k & <- & H).
    apply in_seq in H. lia. }
  auto.
Qed.

Lemma StronglySorted_filter {A} (R : A -> A -> Prop) f : forall l,
  StronglySorted R l -> StronglySorted R (filter f l).
Proof.
  induction 1 as [|a l HS IH HF]; cbn; [constructor|]. destruct (f a); auto. constructor; auto.
  apply Forall_forall. intros x Hx. apply filter_In in Hx. rewrite Forall_forall in HF. apply HF; tauto.
Qed.

Lemma sorted_nth_lt : forall (l : list Z) i j x y,
  StronglySorted Z.lt l -> nth_error l i = Some x -> nth_error l j = Some y -> (i < j)%nat -> x < y.
Proof.
  intros l. induction l as [|a l IH]; intros i j x y HS Hi Hj Hlt; [destruct i; discriminate|].
  inversion HS; subst. destruct i, j; try lia; cbn in *.
  - injection Hi as ->. rewrite Forall_forall in H2. apply H2. eapply nth_error_In; eauto.
  - eapply IH; eauto. lia.
Qed.

Lemma sorted_nth_inj : forall (l : list Z) i j x,
  StronglySorted Z.lt l -> nth_error l i = Some x -> nth_error l j = Some x -> i = j.
Proof.
  intros l i j x HS Hi Hj. destruct (lt_eq_lt_dec i j) as [[H|H]|H]; auto.
  - pose proof (sorted_nth_lt _ _ _ _ _ HS Hi Hj H). lia.
  - pose proof (sorted_nth_lt _ _ _ _ _ HS Hj Hi H). lia.
Qed.

(** Loops *)
Lemma ofold_app {A B} (f : A -> B -> outcome A) : forall l1 l2 a,
  ofold f (l1 ++ l2) a = obind (ofold f l1 a) (ofold f l2).
Proof. induction l1; cbn; intros; auto. destruct (f a0 a); cbn; auto. Qed.

(** A loop that sets disjoint cells of an array, in any order. *)
Lemma par_fill {A} (vals : list A) : forall (ord : list nat) (d : list A),
  length d = length vals ->
  forall i, nth_error (fold_left (fun d i => match nth_error vals i with Some v => upd d i v | None => d end) ord d) i
          = if in_dec Nat.eq_dec i ord then nth_error vals i else nth_error d i.
Proof.
  induction ord as [|k ord IH]; intros d HL i; cbn [fold_left].
  - destruct (in_dec Nat.eq_dec i []); [contradiction|auto].
  - rewrite IH by (destruct (nth_error vals k); rewrite ?upd_length; auto).
    destruct (in_dec Nat.eq_dec i ord) as [H|H], (in_dec Nat.eq_dec i (k :: ord)) as [H'|H']; auto.
    + exfalso; apply H'; right; auto.
    + destruct H' as [->|]; [|contradiction].
      destruct (nth_error vals i) eqn:E.
      * rewrite upd_nth, Nat.eqb_refl. assert (i < length vals)%nat by (apply nth_error_Some; congruence).
        destruct (i <? length d)%nat eqn:F; [auto|lia].
      * apply nth_error_None in E. apply nth_error_None. lia.
    + destruct (nth_error vals k) eqn:E; auto. rewrite upd_nth.
      destruct (Nat.eqb_spec i k); auto. subst. exfalso; apply H'; left; auto.
Qed.

Lemma par_fill_all {A} (vals d : list A) ord :
  length d = length vals -> Permutation ord (seq 0 (length vals)) ->
  fold_left (fun d i => match nth_error vals i with Some v => upd d i v | None => d end) ord d = vals.
Proof.
  intros HL HP. apply nth_error_ext. intros i. rewrite par_fill by auto.
  destruct (in_dec Nat.eq_dec i ord) as [H|H]; auto.
  assert (length vals <= i)%nat.
  { destruct (le_lt_dec (length vals) i); auto. exfalso; apply H.
    apply (Permutation_in (l := seq 0 (length vals))); [symmetry; auto|]. apply in_seq. lia. }
  rewrite (proj2 (nth_error_None vals i)) by lia. apply nth_error_None. lia.
Qed.

(** A loop that rewrites each cell of an array, in any order. *)
Definition modify {A} (f : A -> A) (d : list A) (i : nat) : list A :=
  match nth_error d i with Some x => upd d i (f x) | None => d end.

Lemma modify_length {A} (f : A -> A) d i : length (modify f d i) = length d.
Proof. unfold modify. destruct (nth_error d i); auto. apply upd_length. Qed.

Lemma modify_nth {A} (f : A -> A) d i j :
  nth_error (modify f d i) j = if Nat.eqb j i then option_map f (nth_error d j) else nth_error d j.
Proof.
  unfold modify. destruct (nth_error d i) eqn:E.
  - rewrite upd_nth. destruct (Nat.eqb_spec j i); auto. subst. rewrite E.
    assert (i < length d)%nat by (apply nth_error_Some; congruence).
    destruct (i <? length d)%nat eqn:F; [auto|lia].
  - destruct (Nat.eqb_spec j i); auto. subst. rewrite E. auto.
Qed.

Lemma par_modify {A} (f : A -> A) : forall ord (d : list A) j, NoDup ord ->
  nth_error (fold_left (modify f) ord d) j =
  if in_dec Nat.eq_dec j ord then option_map f (nth_error d j) else nth_error d j.
Proof.
  induction ord as [|k ord IH]; intros d j HN; cbn [fold_left].
  - destruct (in_dec Nat.eq_dec j []); [contradiction|auto].
  - inversion HN; subst. rewrite IH by auto. rewrite modify_nth.
    destruct (in_dec Nat.eq_dec j ord) as [H|H], (in_dec Nat.eq_dec j (k :: ord)) as [H'|H'].
    + destruct (Nat.eqb_spec j k); auto. subst; contradiction.
    + exfalso; apply H'; right; auto.
    + destruct H' as [->|]; [|contradiction]. rewrite Nat.eqb_refl. auto.
    + destruct (Nat.eqb_spec j k); auto. subst. exfalso; apply H'; left; auto.
Qed.

Lemma par_modify_all {A} (f : A -> A) d ord :
  Permutation ord (seq 0 (length d)) -> fold_left (modify f) ord d = map f d.
Proof.
  intros HP. apply nth_error_ext. intros j.
  rewrite par_modify by (apply (Permutation_NoDup (l := seq 0 (length d))); [symmetry; auto|apply seq_NoDup]).
  rewrite nth_error_map. destruct (in_dec Nat.eq_dec j ord) as [H|H]; auto.
  destruct (nth_error d j) eqn:E; auto. exfalso; apply H.
  apply (Permutation_in (l := seq 0 (length d))); [symmetry; auto|]. apply in_seq.
  assert (j < length d)%nat by (apply nth_error_Some; congruence). lia.
Qed.

(** Row-major enumeration of a grid. *)
Lemma grid_cells_divmod : forall rows cols, 0 <= rows -> 0 < cols ->
  grid_cells rows cols = map (fun k => (k / cols, k mod cols)) (zseq (rows * cols)).
Proof.
  intros rows cols Hr Hc. unfold grid_cells.
  pattern rows. apply natlike_ind; auto.
  intros n Hn IH. replace (Z.succ n) with (n + 1) by lia. rewrite zseq_S, flat_map_app, IH by lia.
  replace ((n+1)*cols) with (n*cols + cols) by lia. rewrite zseq_app, map_app by nia. f_equal.
  cbn [flat_map]. rewrite app_nil_r, map_map. apply map_ext_in. intros k Hk. apply zseq_In in Hk.
  f_equal; [apply Z.div_unique with k; lia | apply Z.mod_unique with n; lia].
Qed.

Lemma map_filter {A B} (f : A -> B) (p : B -> bool) : forall l,
  filter p (map f l) = map f (filter (fun x => p (f x)) l).
Proof. induction l; cbn; auto. destruct (p (f a)); cbn; congruence. Qed.

Lemma filter_ext_In {A} (f g : A -> bool) : forall l,
  (forall x, In x l -> f x = g x) -> filter f l = filter g l.
Proof.
  induction l as [|a l IH]; intros H; cbn; auto. rewrite (H a) by (left; auto).
  rewrite IH by (intros; apply H; right; auto). auto.
Qed.
