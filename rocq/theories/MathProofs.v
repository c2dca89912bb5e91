(** Lemmas about array mathematics. *)
From Coq Require Import ZArith QArith List Bool Lia Lqa Permutation Setoid Morphisms.
From Verif Require Import Base ListLib MathModel MathSpec.
Import ListNotations.
Open Scope Z_scope.

(** ** Loops *)
Lemma forloop_app {S} (body : S -> Z -> outcome S) l1 l2 s :
  forloop (l1 ++ l2) body s = obind (forloop l1 body s) (fun s => forloop l2 body s).
Proof.
  unfold forloop. rewrite fold_left_app.
  assert (G : forall l o, fold_left (fun acc i => obind acc (fun s => body s i)) l o =
    obind o (fun s => fold_left (fun acc i => obind acc (fun s => body s i)) l (Ok s))).
  { clear. induction l as [|i l IH]; intros o; cbn; [destruct o; auto|].
    rewrite IH. destruct o; cbn; auto. }
  apply G.
Qed.

Lemma forloop_cons {S} (body : S -> Z -> outcome S) i l s :
  forloop (i :: l) body s = obind (body s i) (fun s => forloop l body s).
Proof. change (i :: l) with ([i] ++ l). rewrite forloop_app. reflexivity. Qed.

Lemma range_snoc lo hi : lo <= hi -> range lo (hi + 1) = range lo hi ++ [hi].
Proof.
  intros H. unfold range. replace (Z.to_nat (hi + 1 - lo)) with (S (Z.to_nat (hi - lo))) by lia.
  rewrite seq_S, map_app. cbn. do 2 f_equal. lia.
Qed.

Lemma range_cons lo hi : lo < hi -> range lo hi = lo :: range (lo + 1) hi.
Proof.
  intros H. unfold range. replace (Z.to_nat (hi - lo)) with (S (Z.to_nat (hi - (lo + 1)))) by lia.
  cbn [seq map]. f_equal; [lia|]. rewrite <- seq_shift, map_map. apply map_ext. intros; lia.
Qed.

Lemma range_nil lo hi : hi <= lo -> range lo hi = [].
Proof. intros H. unfold range. replace (Z.to_nat (hi - lo)) with O by lia. auto. Qed.

Lemma In_range lo hi i : In i (range lo hi) <-> lo <= i < hi.
Proof.
  unfold range. rewrite in_map_iff. split.
  - intros (k & <- & H). apply in_seq in H. lia.
  - intros H. exists (Z.to_nat (i - lo)). split; [lia|apply in_seq; lia].
Qed.

(** A loop over a whole suffix of an array that only reads it. *)
Lemma forloop_read {S T} (f : S -> T -> S) (a : list T) : forall pre rest s,
  a = pre ++ rest ->
  forloop (range (Z.of_nat (length pre)) (Z.of_nat (length a))) (fun s i => obind (aget a i) (fun v => Ok (f s v))) s =
  Ok (fold_left f rest s).
Proof.
  intros pre rest. revert pre. induction rest as [|v rest IH]; intros pre s E.
  - rewrite app_nil_r in E. subst. rewrite range_nil by lia. reflexivity.
  - rewrite range_cons by (subst; rewrite app_length; cbn; lia). rewrite forloop_cons.
    rewrite (aget_ok a (Z.of_nat (length pre)) v) by (try lia; rewrite Nat2Z.id; subst a; rewrite nth_error_app2, Nat.sub_diag by lia; auto).
    cbn [obind fold_left].
    specialize (IH (pre ++ [v]) (f s v)). rewrite app_length in IH. cbn [length] in IH.
    replace (Z.of_nat (length pre) + 1) with (Z.of_nat (length pre + 1)) by lia. apply IH. rewrite <- app_assoc. auto.
Qed.

(** ** Maximum and minimum *)
Section Order.
Context {T : Type}.
Variable ltb : T -> T -> bool.

Lemma fold_max_in : forall l m, In (fold_left (fun m v => if ltb m v then v else m) l m) (m :: l).
Proof.
  induction l as [|v l IH]; intros m; cbn [fold_left]; [left; auto|].
  destruct (IH (if ltb m v then v else m)) as [E|E]; [|right; right; auto].
  rewrite <- E. destruct (ltb m v); cbn; auto.
Qed.

Lemma fold_max_ub : strict_weak ltb -> forall l m x, In x (m :: l) ->
  ltb (fold_left (fun m v => if ltb m v then v else m) l m) x = false.
Proof.
  intros [HA HT]. assert (HI : forall a, ltb a a = false).
  { intros a. destruct (ltb a a) eqn:E; auto. rewrite (HA _ _ E) in E. discriminate. }
  induction l as [|v l IH]; intros m x Hx; cbn [fold_left].
  - destruct Hx as [<-|[]]. apply HI.
  - set (m' := if ltb m v then v else m).
    assert (B : ltb m' m = false /\ ltb m' v = false).
    { unfold m'. destruct (ltb m v) eqn:E; auto. }
    destruct Hx as [<-|[<-|Hx]].
    + eapply HT; [apply (IH m'); left; auto|apply B].
    + eapply HT; [apply (IH m'); left; auto|apply B].
    + apply IH. right; auto.
Qed.

Lemma fold_min_in : forall l m, In (fold_left (fun m v => if ltb v m then v else m) l m) (m :: l).
Proof.
  induction l as [|v l IH]; intros m; cbn [fold_left]; [left; auto|].
  destruct (IH (if ltb v m then v else m)) as [E|E]; [|right; right; auto].
  rewrite <- E. destruct (ltb v m); cbn; auto.
Qed.

Lemma fold_min_lb : strict_weak ltb -> forall l m x, In x (m :: l) ->
  ltb x (fold_left (fun m v => if ltb v m then v else m) l m) = false.
Proof.
  intros [HA HT]. assert (HI : forall a, ltb a a = false).
  { intros a. destruct (ltb a a) eqn:E; auto. rewrite (HA _ _ E) in E. discriminate. }
  induction l as [|v l IH]; intros m x Hx; cbn [fold_left].
  - destruct Hx as [<-|[]]. apply HI.
  - set (m' := if ltb v m then v else m).
    assert (B : ltb m m' = false /\ ltb v m' = false).
    { unfold m'. destruct (ltb v m) eqn:E; auto. }
    destruct Hx as [<-|[<-|Hx]].
    + eapply HT; [apply B|apply (IH m'); left; auto].
    + eapply HT; [apply B|apply (IH m'); left; auto].
    + apply IH. right; auto.
Qed.

Theorem Max_ok (a : list T) : strict_weak ltb -> a <> [] ->
  exists m, MaxInArray ltb a (Z.of_nat (length a)) = Ok m /\ In m a /\ forall x, In x a -> ltb m x = false.
Proof.
  intros HW Ha. destruct a as [|v l]; [congruence|].
  exists (fold_left (fun m v => if ltb m v then v else m) l v). split; [|split; [apply fold_max_in|intros x Hx; apply fold_max_ub; auto]].
  unfold MaxInArray. change (aget (v :: l) 0) with (Ok v). cbn [obind].
  apply (forloop_read (fun m v => if ltb m v then v else m) (v :: l) [v] l). auto.
Qed.

Theorem Min_ok (a : list T) : strict_weak ltb -> a <> [] ->
  exists m, MinInArray ltb a (Z.of_nat (length a)) = Ok m /\ In m a /\ forall x, In x a -> ltb x m = false.
Proof.
  intros HW Ha. destruct a as [|v l]; [congruence|].
  exists (fold_left (fun m v => if ltb v m then v else m) l v). split; [|split; [apply fold_min_in|intros x Hx; apply fold_min_lb; auto]].
  unfold MinInArray. change (aget (v :: l) 0) with (Ok v). cbn [obind].
  apply (forloop_read (fun m v => if ltb v m then v else m) (v :: l) [v] l). auto.
Qed.
End Order.

(** ** Reductions *)
Section Monoid.
Context {T : Type}.
Variable eqv : T -> T -> Prop.
Variable op : T -> T -> T.
Variable zero : T.
Hypothesis Heq : Equivalence eqv.
Hypothesis Hop : Proper (eqv ==> eqv ==> eqv) op.
Hypothesis HA : forall a b c, eqv (op a (op b c)) (op (op a b) c).
Hypothesis HC : forall a b, eqv (op a b) (op b a).
Hypothesis H0 : forall a, eqv (op zero a) a.
Local Definition msum (l : list T) : T := fold_right op zero l.

Local Definition somes (l : list (option T)) : list T := flat_map (fun o => match o with Some x => [x] | None => [] end) l.

Lemma msum_app l1 l2 : eqv (msum (l1 ++ l2)) (op (msum l1) (msum l2)).
Proof using Type*.
  induction l1 as [|x l1 IH]; cbn; [symmetry; apply H0|]. rewrite IH. apply HA.
Qed.

Lemma msum_perm l1 l2 : Permutation l1 l2 -> eqv (msum l1) (msum l2).
Proof using Type*.
  induction 1; cbn; [reflexivity|rewrite IHPermutation; reflexivity| |etransitivity; eauto].
  rewrite (HA y x), (HC y x), <- HA. reflexivity.
Qed.

Lemma flat_map_perm {A B} (f : A -> list B) l1 l2 : Permutation l1 l2 -> Permutation (flat_map f l1) (flat_map f l2).
Proof using.
  clear. induction 1; cbn; auto; [now apply Permutation_app_head| |etransitivity; eauto].
  rewrite !app_assoc. apply Permutation_app_tail, Permutation_app_comm.
Qed.

Variable get : nat -> option T.

Lemma thread_sum (term : nat -> outcome (option T)) : forall its s, (forall i, In i its -> term i = Ok (get i)) ->
  exists r, fold_left (fun acc i => obind acc (fun s => obind (term i) (fun v => match v with Some x => Ok (op s x) | None => Ok s end))) its (Ok s) = Ok r /\
  eqv r (op s (msum (somes (map get its)))).
Proof using Type*.
  induction its as [|i its IH]; intros s HI.
  - exists s. split; auto. cbn. rewrite HC. symmetry. apply H0.
  - cbn [fold_left]. rewrite (HI i) by (left; auto). cbn [obind map].
    destruct (get i) as [x|].
    + destruct (IH (op s x)) as (r & E & R); [intros; apply HI; right; auto|]. exists r. split; auto.
      rewrite R. cbn. symmetry. apply HA.
    + destruct (IH s) as (r & E & R); [intros; apply HI; right; auto|]. exists r. split; auto.
Qed.

Lemma somes_app l1 l2 : somes (l1 ++ l2) = somes l1 ++ somes l2.
Proof using. clear. apply flat_map_app. Qed.

Lemma partial_sum (term : nat -> outcome (option T)) : forall t, (forall i, In i (iterations t) -> term i = Ok (get i)) ->
  exists r, partial (fun a b => Ok (op a b)) zero term t = Ok r /\ eqv r (msum (somes (map get (iterations t)))).
Proof using Type*.
  induction t as [its|l IHl r IHr]; intros HI.
  - cbn [partial iterations] in *. destruct (thread_sum term its zero HI) as (x & E & R). exists x. split; auto.
    rewrite R. apply H0.
  - cbn [partial iterations] in *. destruct IHl as (a & EA & RA); [intros; apply HI, in_or_app; auto|].
    destruct IHr as (b & EB & RB); [intros; apply HI, in_or_app; auto|].
    exists (op a b). rewrite EA, EB. cbn [obind]. split; auto.
    rewrite map_app, somes_app, msum_app, RA, RB. reflexivity.
Qed.

Lemma reduce_sum (term : nat -> outcome (option T)) t n : covers t n -> (forall i, (i < n)%nat -> term i = Ok (get i)) ->
  exists r, reduce (fun a b => Ok (op a b)) zero term zero t = Ok r /\ eqv r (msum (somes (map get (seq 0 n)))).
Proof using Type*.
  intros HC' HI. destruct (partial_sum term t) as (r & E & R).
  { intros i Hi. apply HI. assert (In i (seq 0 n)) by (eapply Permutation_in; [exact HC'|auto]). apply in_seq in H. lia. }
  exists (op zero r). unfold reduce. rewrite E. cbn [obind]. split; auto. rewrite H0, R. apply msum_perm.
  unfold somes. apply flat_map_perm, Permutation_map, HC'.
Qed.
End Monoid.

Lemma seq_get {A} (l : list A) : map (fun i => nth_error l i) (seq 0 (length l)) = map Some l.
Proof.
  induction l as [|x l IH]; cbn [seq length map]; auto. f_equal; auto.
  rewrite <- seq_shift, map_map. exact IH.
Qed.

Lemma somes_Some {A} (l : list A) : flat_map (fun o => match o with Some x => [x] | None => [] end) (map Some l) = l.
Proof. induction l; cbn; congruence. Qed.

Lemma aget_nat {A} (l : list A) i : aget l (Z.of_nat i) = match nth_error l i with Some v => Ok v | None => UB end.
Proof. unfold aget. destruct (Z.ltb_spec (Z.of_nat i) 0); [lia|]. rewrite Nat2Z.id. auto. Qed.

Theorem Sum_ok {T} (op : T -> T -> T) zero (data : list T) t : comm_monoid op zero -> covers t (length data) ->
  Sum (fun a b => Ok (op a b)) zero data t = Ok (fold_right op zero data).
Proof.
  intros (HA & HC & H0) Hc. unfold Sum.
  destruct (reduce_sum eq op zero _ ltac:(repeat intro; congruence) HA HC H0 (nth_error data)
     (fun i => obind (aget data (Z.of_nat i)) (fun v => Ok (Some v))) t (length data) Hc) as (r & E & R).
  { intros i Hi. rewrite aget_nat. destruct (nth_error data i) eqn:E; auto. apply nth_error_None in E. lia. }
  rewrite E. f_equal. rewrite R. unfold msum, somes. rewrite seq_get, somes_Some. auto.
Qed.

Theorem Sum_idx_ok {T} (op : T -> T -> T) zero (idx : list Z) (data : list T) vals t : comm_monoid op zero ->
  covers t (length idx) -> Forall2 (fun j v => aget data j = Ok v) idx vals ->
  Sum_idx (fun a b => Ok (op a b)) zero idx data t = Ok (fold_right op zero vals).
Proof.
  intros (HA & HC & H0) Hc HF. unfold Sum_idx. assert (HL : length idx = length vals) by (clear - HF; induction HF; cbn; congruence). rewrite HL in Hc.
  destruct (reduce_sum eq op zero _ ltac:(repeat intro; congruence) HA HC H0 (nth_error vals)
     (fun i => obind (aget idx (Z.of_nat i)) (fun j => obind (aget data j) (fun v => Ok (Some v)))) t (length vals) Hc) as (r & E & R).
  { clear - HF. intros i Hi. rewrite aget_nat. revert i Hi. induction HF as [|j v idx vals Hj HF IH]; intros i Hi; [cbn in Hi; lia|].
    destruct i as [|i]; cbn [nth_error obind]; [rewrite Hj; auto|]. apply IH. cbn in Hi. lia. }
  rewrite E. f_equal. rewrite R. unfold msum, somes. rewrite seq_get, somes_Some. auto.
Qed.

(** *** [int] sums with overflow *)
Lemma zsum_app l1 l2 : zsum (l1 ++ l2) = zsum l1 + zsum l2.
Proof. unfold zsum. induction l1; cbn; lia. Qed.

Lemma zsum_perm l1 l2 : Permutation l1 l2 -> zsum l1 = zsum l2.
Proof. unfold zsum. induction 1; cbn; lia. Qed.

Lemma zsum_abs_le l : Z.abs (zsum l) <= zsum (map Z.abs l) /\ 0 <= zsum (map Z.abs l).
Proof. unfold zsum. induction l; cbn; lia. Qed.

Lemma zabs_perm l1 l2 : Permutation l1 l2 -> zsum (map Z.abs l1) = zsum (map Z.abs l2).
Proof. intros. apply zsum_perm, Permutation_map; auto. Qed.

Section IntSum.
Variable data : list Z.
Let get (i : nat) : Z := nth i data 0.
Let ab (l : list nat) : Z := zsum (map Z.abs (map get l)).

Lemma ab_nn l : 0 <= ab l.
Proof using. unfold ab. apply zsum_abs_le. Qed.

Lemma int_add_ok a b : Z.abs (a + b) <= INT_MAX -> int_add a b = Ok (a + b).
Proof using. clear. intros H. unfold int_add, in_intb, INT_MIN, INT_MAX in *. destruct (_ && _) eqn:E; auto. lia. Qed.

Lemma int_thread : forall its s, (forall i, In i its -> (i < length data)%nat) -> Z.abs s + ab its <= INT_MAX ->
  fold_left (fun acc i => obind acc (fun s => obind (obind (aget data (Z.of_nat i)) (fun v => Ok (Some v)))
     (fun v => match v with Some x => int_add s x | None => Ok s end))) its (Ok s) = Ok (s + zsum (map get its)).
Proof using.
  induction its as [|i its IH]; intros s HI HB.
  - cbn. f_equal. lia.
  - cbn [fold_left]. rewrite aget_nat. pose proof (HI i (or_introl eq_refl)) as Hi.
    destruct (nth_error data i) as [x|] eqn:E; [|apply nth_error_None in E; lia].
    assert (Hx : get i = x) by (unfold get; apply nth_error_nth; auto).
    unfold ab, zsum in HB. cbn [map fold_right] in HB. fold (zsum (map Z.abs (map get its))) in HB. fold (ab its) in HB.
    pose proof (ab_nn its). cbn [obind]. rewrite int_add_ok by lia.
    rewrite IH; [|intros; apply HI; right; auto|lia]. f_equal. unfold zsum. cbn [map fold_right]. lia.
Qed.

Lemma int_partial : forall t, (forall i, In i (iterations t) -> (i < length data)%nat) -> ab (iterations t) <= INT_MAX ->
  partial int_add 0 (fun i => obind (aget data (Z.of_nat i)) (fun v => Ok (Some v))) t = Ok (zsum (map get (iterations t))).
Proof using.
  induction t as [its|l IHl r IHr]; intros HI HB; cbn [partial iterations] in *.
  - rewrite (int_thread its 0) by (auto; lia). auto.
  - unfold ab in HB. rewrite !map_app, zsum_app in HB. fold (ab (iterations l)) (ab (iterations r)) in HB.
    pose proof (ab_nn (iterations l)). pose proof (ab_nn (iterations r)).
    rewrite IHl by (try lia; intros; apply HI, in_or_app; auto). rewrite IHr by (try lia; intros; apply HI, in_or_app; auto).
    cbn [obind]. rewrite map_app, zsum_app. apply int_add_ok.
    pose proof (zsum_abs_le (map get (iterations l))). pose proof (zsum_abs_le (map get (iterations r))). unfold ab in *. lia.
Qed.
End IntSum.

Lemma map_nth_seq (data : list Z) : map (fun i => nth i data 0) (seq 0 (length data)) = data.
Proof.
  induction data as [|x l IH]; cbn [seq length map]; auto. f_equal; auto.
  rewrite <- seq_shift, map_map. exact IH.
Qed.

Theorem Sum_int_ok (data : list Z) t : covers t (length data) -> zsum (map Z.abs data) <= INT_MAX ->
  Sum int_add 0 data t = Ok (zsum data).
Proof.
  intros Hc HB. unfold Sum, reduce. unfold covers in Hc.
  assert (P : Permutation (map (fun i => nth i data 0) (iterations t)) data).
  { pose proof (Permutation_map (fun i => nth i data 0) Hc) as P. rewrite map_nth_seq in P. exact P. }
  rewrite (int_partial data t).
  - cbn [obind]. rewrite (zsum_perm _ _ P). pose proof (zsum_abs_le data). rewrite int_add_ok by (cbn; lia). auto.
  - intros i Hi. assert (In i (seq 0 (length data))) by (eapply Permutation_in; eauto). apply in_seq in H. lia.
  - rewrite (zabs_perm _ _ P). auto.
Qed.

(** ** Statistics *)
Lemma qltb_spec a b : qltb a b = true <-> (a < b)%Q.
Proof.
  unfold qltb. rewrite negb_true_iff, <- not_true_iff_false, Qle_bool_iff. split; intros H; lra.
Qed.
Lemma qltb_false a b : qltb a b = false <-> (b <= a)%Q.
Proof. unfold qltb. rewrite negb_false_iff. apply Qle_bool_iff. Qed.

Lemma qltb_sw : strict_weak qltb.
Proof.
  split; intros a b.
  - rewrite qltb_spec, qltb_false. intros; lra.
  - intros c. rewrite !qltb_false. intros; lra.
Qed.

Definition step1 (a : Q * Q * Z * Q) (v : Q) : Q * Q * Z * Q :=
  let '(maxv, minv, n, s) := a in
  (if qltb maxv v then v else maxv, if qltb v minv then v else minv, n + 1, (s + v)%Q).

Lemma fold_step1 : forall l mx mn n s,
  exists s', fold_left step1 l (mx, mn, n, s) =
   (fold_left (fun m v => if qltb m v then v else m) l mx, fold_left (fun m v => if qltb v m then v else m) l mn,
    n + Z.of_nat (length l), s') /\ (s' == s + qsum l)%Q.
Proof.
  induction l as [|v l IH]; intros mx mn n s; cbn [fold_left step1].
  - exists s. split; [cbn [length]; replace (n + Z.of_nat 0) with n by lia; auto|]. unfold qsum; cbn. lra.
  - destruct (IH (if qltb mx v then v else mx) (if qltb v mn then v else mn) (n + 1) (s + v)%Q) as (s' & E & R).
    exists s'. rewrite E. split; [replace (n + 1 + Z.of_nat (length l)) with (n + Z.of_nat (length (v :: l))) by (cbn [length]; lia); auto|]. rewrite R. unfold qsum; cbn [fold_right]. lra.
Qed.

Lemma fold_max_start l m : l <> [] -> (forall x, In x l -> (m <= x)%Q) ->
  let r := fold_left (fun m v => if qltb m v then v else m) l m in
  (exists x, In x l /\ (x == r)%Q) /\ forall x, In x l -> (x <= r)%Q.
Proof.
  intros Hl HB r. destruct (fold_max_in qltb l m) as [E|E]; fold r in E.
  - destruct l as [|v l]; [congruence|]. split; [|].
    + exists v. split; [left; auto|]. pose proof (fold_max_ub qltb qltb_sw (v :: l) m v ltac:(right; left; auto)) as H.
      apply qltb_false in H. pose proof (HB v (or_introl eq_refl)). fold r in H. rewrite <- E in *. lra.
    + intros x Hx. apply qltb_false. apply (fold_max_ub qltb qltb_sw). right; auto.
  - split; [exists r; split; [auto|reflexivity]|]. intros x Hx. apply qltb_false. apply (fold_max_ub qltb qltb_sw). right; auto.
Qed.

Lemma fold_min_start l m : l <> [] -> (forall x, In x l -> (x <= m)%Q) ->
  let r := fold_left (fun m v => if qltb v m then v else m) l m in
  (exists x, In x l /\ (x == r)%Q) /\ forall x, In x l -> (r <= x)%Q.
Proof.
  intros Hl HB r. destruct (fold_min_in qltb l m) as [E|E]; fold r in E.
  - destruct l as [|v l]; [congruence|]. split; [|].
    + exists v. split; [left; auto|]. pose proof (fold_min_lb qltb qltb_sw (v :: l) m v ltac:(right; left; auto)) as H.
      apply qltb_false in H. pose proof (HB v (or_introl eq_refl)). fold r in H. rewrite <- E in *. lra.
    + intros x Hx. apply qltb_false. apply (fold_min_lb qltb qltb_sw). right; auto.
  - split; [exists r; split; [auto|reflexivity]|]. intros x Hx. apply qltb_false. apply (fold_min_lb qltb qltb_sw). right; auto.
Qed.

Lemma divn_ok s n : 0 < n -> exists q, divn s n = Some q /\ (q * inject_Z n == s)%Q.
Proof.
  intros H. unfold divn. destruct (Z.eqb_spec n 0); [lia|]. eexists. split; [reflexivity|].
  field. intros E. unfold Qeq in E. cbn in E. lia.
Qed.

Lemma divn_0 s : divn s 0 = None.
Proof. reflexivity. Qed.

Section Stats.
Variable feq : Q -> Q -> bool.

Lemma fold_valid ex : forall l a, fold_left (acc_step feq ex) l a = fold_left step1 (valid feq ex l) a.
Proof using.
  induction l as [|v l IH]; intros a; cbn [fold_left valid filter]; auto.
  unfold acc_step at 2. destruct (feq v ex); cbn [negb fold_left]; apply IH.
Qed.

(** The last steps, common to both forms: [vals] are the values, [term] reads the
    deviation of one of them. *)
Lemma dev_sum ex m (vals : list Q) (rd : nat -> outcome Q) t : covers t (length vals) ->
  (forall i, rd i = match nth_error vals i with Some v => Ok v | None => UB end) ->
  exists d, reduce qadd 0%Q (fun i => obind (rd i) (fun v => Ok (dev_term feq ex (Some m) v))) 0%Q t = Ok d /\
  (d == qsum (map (fun x => (x - m) * (x - m))%Q (valid feq ex vals)))%Q.
Proof using.
  intros Hc HR.
  destruct (reduce_sum Qeq Qplus 0%Q _ Qplus_comp ltac:(intros; lra) ltac:(intros; lra) ltac:(intros; lra)
    (fun i => match nth_error vals i with Some v => dev_term feq ex (Some m) v | None => None end)
    (fun i => obind (rd i) (fun v => Ok (dev_term feq ex (Some m) v))) t (length vals) Hc) as (r & E & R).
  { intros i Hi. rewrite HR. destruct (nth_error vals i) eqn:E; auto. apply nth_error_None in E. lia. }
  exists r. split; [exact E|]. rewrite R. clear. unfold msum, qsum, somes.
  assert (EE : flat_map (fun o : option Q => match o with Some x => [x] | None => [] end)
     (map (fun i => match nth_error vals i with Some v => dev_term feq ex (Some m) v | None => None end) (seq 0 (length vals)))
     = map (fun x => (x - m) * (x - m))%Q (valid feq ex vals)).
  { assert (E1 : map (fun i => match nth_error vals i with Some v => dev_term feq ex (Some m) v | None => None end) (seq 0 (length vals))
      = map (dev_term feq ex (Some m)) vals).
    { rewrite <- (map_map (fun i => nth_error vals i) (fun o => match o with Some v => dev_term feq ex (Some m) v | None => None end)).
      rewrite seq_get, map_map. auto. }
    rewrite E1. clear. unfold valid. induction vals as [|v l IH]; cbn [map flat_map filter]; auto.
    unfold dev_term at 1. destruct (feq v ex); cbn [negb app map]; [|f_equal]; apply IH. }
  rewrite EE. reflexivity.
Qed.

Lemma dev_none ex (vals : list Q) (rd : nat -> outcome Q) t : covers t (length vals) -> valid feq ex vals = [] ->
  (forall i, rd i = match nth_error vals i with Some v => Ok v | None => UB end) ->
  exists d, reduce qadd 0%Q (fun i => obind (rd i) (fun v => Ok (dev_term feq ex None v))) 0%Q t = Ok d.
Proof using.
  intros Hc _ HR.
  destruct (reduce_sum Qeq Qplus 0%Q _ Qplus_comp ltac:(intros; lra) ltac:(intros; lra) ltac:(intros; lra)
    (fun i => match nth_error vals i with Some v => dev_term feq ex None v | None => None end)
    (fun i => obind (rd i) (fun v => Ok (dev_term feq ex None v))) t (length vals) Hc) as (r & E & R).
  { intros i Hi. rewrite HR. destruct (nth_error vals i) eqn:E; auto. apply nth_error_None in E. lia. }
  exists r. exact E.
Qed.

Variable sqrt : Q -> Q.

Definition finish (ex : Q) (rd : nat -> outcome Q) (a : Q * Q * Z * Q) (t : team) : outcome stats :=
  let '(maxv, minv, n, s) := a in
  obind (reduce qadd 0%Q (fun i => obind (rd i) (fun v => Ok (dev_term feq ex (divn s n) v))) 0%Q t)
    (fun d => Ok (mkStats n (divn s n) maxv minv (option_map sqrt (divn d n)) (maxv - minv)%Q)).

Lemma finish_ok ex vals rd t : covers t (length vals) ->
  (forall i, rd i = match nth_error vals i with Some v => Ok v | None => UB end) ->
  exists st, finish ex rd (fold_left (acc_step feq ex) vals acc0) t = Ok st /\
  (valid feq ex vals <> [] -> Forall in_float_range (valid feq ex vals) -> stats_of sqrt (valid feq ex vals) st) /\
  (valid feq ex vals = [] -> st = mkStats 0 None MISSINGFLOAT MAXIMUMFLOAT None (MISSINGFLOAT - MAXIMUMFLOAT)%Q).
Proof using Type.
  intros Hc HR. rewrite fold_valid. unfold acc0.
  destruct (fold_step1 (valid feq ex vals) MISSINGFLOAT MAXIMUMFLOAT 0 0%Q) as (s & -> & Hs).
  set (l := valid feq ex vals) in *. unfold finish.
  destruct l as [|v0 l0] eqn:El.
  - change (0 + Z.of_nat (length (@nil Q))) with 0. rewrite divn_0.
    destruct (dev_none ex vals rd t Hc El HR) as (d & ->). cbn [obind]. eexists. split; [reflexivity|]. split; [congruence|]. intros _.
    cbn [fold_left]. rewrite divn_0. reflexivity.
  - rewrite <- El in *. assert (Hl : l <> []) by congruence.
    assert (HN : 0 < Z.of_nat (length l)) by (rewrite El; cbn [length]; lia).
    replace (0 + Z.of_nat (length l)) with (Z.of_nat (length l)) by lia.
    destruct (divn_ok s _ HN) as (m & EM & HM). rewrite EM.
    destruct (dev_sum ex m vals rd t Hc HR) as (d & -> & HD). cbn [obind].
    destruct (divn_ok d _ HN) as (v & EV & HV). rewrite EV. eexists. split; [reflexivity|]. split; [|congruence].
    intros _ HF. rewrite Forall_forall in HF.
    pose proof (fold_max_start l MISSINGFLOAT Hl ltac:(intros x Hx; apply (HF x Hx))) as HMX.
    pose proof (fold_min_start l MAXIMUMFLOAT Hl ltac:(intros x Hx; apply (HF x Hx))) as HMN. cbv zeta in HMX, HMN.
    unfold stats_of. cbn [s_num s_mean s_max s_min s_std s_range].
    split; auto. split; auto. split; auto. split; [reflexivity|].
    exists m, v. split; auto. split; [rewrite HM, Hs; lra|]. split; auto. rewrite HV. exact HD.
Qed.

Theorem BasicStatistics_ok ex vals t : covers t (length vals) ->
  exists st, BasicStatistics feq sqrt vals (Z.of_nat (length vals)) ex t = Ok st /\
  (valid feq ex vals <> [] -> Forall in_float_range (valid feq ex vals) -> stats_of sqrt (valid feq ex vals) st) /\
  (valid feq ex vals = [] -> st = mkStats 0 None MISSINGFLOAT MAXIMUMFLOAT None (MISSINGFLOAT - MAXIMUMFLOAT)%Q).
Proof using Type.
  intros Hc. destruct (finish_ok ex vals (fun i => aget vals (Z.of_nat i)) t Hc (fun i => aget_nat vals i)) as (st & E & H).
  exists st. split; auto. unfold BasicStatistics.
  pose proof (forloop_read (acc_step feq ex) vals [] vals acc0 eq_refl) as EL. cbn [length] in EL. change (Z.of_nat 0) with 0 in EL.
  rewrite EL. cbn [obind]. exact E.
Qed.

(** *** Layers *)

Lemma layer_pass ex (c : list Q) : forall (k : nat) accs, length accs = length c -> (k <= length c)%nat ->
  forloop (range 0 (Z.of_nat k)) (fun accs j => obind (aget c j) (fun v => obind (aget accs j) (fun a => aset accs j (acc_step feq ex a v)))) accs
  = Ok (map (fun j => if (j <? k)%nat then acc_step feq ex (nth j accs acc0) (nth j c 0%Q) else nth j accs acc0) (seq 0 (length accs))).
Proof using Type. clear sqrt.
  induction k as [|k IH]; intros accs HL Hk.
  - rewrite range_nil by lia. cbn. f_equal. clear. induction accs as [|a l IH]; cbn [length seq map]; auto. f_equal.
    rewrite <- seq_shift, map_map. exact IH.
  - replace (Z.of_nat (S k)) with (Z.of_nat k + 1) by lia. rewrite range_snoc by lia. rewrite forloop_app, IH by (auto; lia).
    cbn [obind]. rewrite forloop_cons. set (A := map _ _).
    assert (LA : length A = length accs) by (unfold A; rewrite map_length, seq_length; auto).
    assert (NA : forall j, (j < length accs)%nat -> nth_error A j = Some (if (j <? k)%nat then acc_step feq ex (nth j accs acc0) (nth j c 0%Q) else nth j accs acc0)).
    { intros j Hj. unfold A. rewrite nth_error_map.
      rewrite (nth_error_nth' (seq 0 (length accs)) 0%nat) by (rewrite seq_length; auto). rewrite seq_nth by auto. reflexivity. }
    rewrite !aget_nat. rewrite (nth_error_nth' c 0%Q) by lia. rewrite NA by lia. replace (k <? k)%nat with false by (symmetry; apply Nat.ltb_irrefl).
    cbn [obind]. rewrite aset_ok by lia. cbn [obind]. unfold forloop. cbn [fold_left]. f_equal. rewrite Nat2Z.id.
    apply nth_error_ext. intros j. rewrite upd_nth. rewrite LA.
    destruct (Nat.lt_ge_cases j (length accs)) as [Hj|Hj].
    + rewrite nth_error_map, (nth_error_nth' (seq 0 (length accs)) 0%nat) by (rewrite seq_length; auto). rewrite seq_nth by auto. cbn [option_map Nat.add].
      destruct (Nat.eqb_spec j k) as [->|Hne].
      * replace (k <? length accs)%nat with true by (symmetry; apply Nat.ltb_lt; lia). cbn [andb]. replace (k <? S k)%nat with true by (symmetry; apply Nat.ltb_lt; lia). auto.
      * cbn [andb]. rewrite NA by auto. f_equal. destruct (Nat.ltb_spec j k), (Nat.ltb_spec j (S k)); try lia; auto.
    + assert (E1 : nth_error A j = None) by (apply nth_error_None; lia).
      assert (E2 : forall B (f : nat -> B), nth_error (map f (seq 0 (length accs))) j = None) by (intros; apply nth_error_None; rewrite map_length, seq_length; lia).
      rewrite E2, E1. destruct (Nat.eqb_spec j k); [lia|reflexivity].
Qed.

Lemma forloop_ext {S} (b1 b2 : S -> Z -> outcome S) : forall l s, (forall s i, In i l -> b1 s i = b2 s i) -> forloop l b1 s = forloop l b2 s.
Proof using Type.
  clear. induction l as [|i l IH]; intros s H; auto. rewrite !forloop_cons, H by (left; auto).
  destruct (b2 s i); cbn [obind]; auto. apply IH. intros; apply H; right; auto.
Qed.

Lemma map_nth_eq {B} (f g : nat -> B) n : (forall j, (j < n)%nat -> f j = g j) -> map f (seq 0 n) = map g (seq 0 n).
Proof using Type. clear. intros H. apply map_ext_in. intros j Hj. apply in_seq in Hj. apply H. lia. Qed.

Lemma nth_map_seq {B} (f : nat -> B) n d j : (j < n)%nat -> nth j (map f (seq 0 n)) d = f j.
Proof using Type. clear. intros H. apply nth_error_nth. rewrite nth_error_map, (nth_error_nth' (seq 0 n) 0%nat) by (rewrite seq_length; auto). rewrite seq_nth by auto. auto. Qed.

Lemma rows_pass ex (values : list (list Q)) L : Forall (fun c => length c = L) values -> forall rest pre, values = pre ++ rest ->
  forloop (range (Z.of_nat (length pre)) (Z.of_nat (length values))) (fun accs i =>
      forloop (range 0 (Z.of_nat L)) (fun accs j =>
        obind (aget2 values i j) (fun v => obind (aget accs j) (fun a => aset accs j (acc_step feq ex a v)))) accs)
    (map (fun j => fold_left (acc_step feq ex) (column pre j) acc0) (seq 0 L))
  = Ok (map (fun j => fold_left (acc_step feq ex) (column values j) acc0) (seq 0 L)).
Proof using Type. clear sqrt.
  intros HF. induction rest as [|c rest IH]; intros pre E.
  - rewrite app_nil_r in E. subst pre. rewrite range_nil by lia. reflexivity.
  - rewrite range_cons by (subst; rewrite app_length; cbn; lia). rewrite forloop_cons.
    assert (HC : aget values (Z.of_nat (length pre)) = Ok c).
    { rewrite aget_nat. subst values. rewrite nth_error_app2, Nat.sub_diag by lia. auto. }
    assert (Lc : length c = L) by (rewrite Forall_forall in HF; apply HF; subst; apply in_or_app; right; left; auto).
    rewrite (forloop_ext _ (fun accs j => obind (aget c j) (fun v => obind (aget accs j) (fun a => aset accs j (acc_step feq ex a v))))).
    2:{ intros s i _. unfold aget2. rewrite HC. reflexivity. }
    rewrite <- Lc. rewrite layer_pass by (rewrite ?map_length, ?seq_length; lia). rewrite map_length, seq_length. cbn [obind].
    specialize (IH (pre ++ [c])). rewrite app_length in IH. cbn [length] in IH.
    replace (Z.of_nat (length pre) + 1) with (Z.of_nat (length pre + 1)) by lia. rewrite Lc, <- IH by (rewrite <- app_assoc; auto).
    f_equal. apply map_nth_eq. intros j Hj. destruct (Nat.ltb_spec j L); [|lia].
    rewrite nth_map_seq by auto. unfold column. rewrite map_app, fold_left_app. reflexivity.
Qed.

Lemma collect (F : Z -> outcome stats) (P : nat -> stats -> Prop) : forall n, (forall j, (j < n)%nat -> exists st, F (Z.of_nat j) = Ok st /\ P j st) ->
  exists sts, forloop (range 0 (Z.of_nat n)) (fun out j => obind (F j) (fun st => Ok (out ++ [st]))) [] = Ok sts /\
  length sts = n /\ forall j st, nth_error sts j = Some st -> P j st.
Proof using Type.
  clear. induction n as [|n IH]; intros H.
  - exists []. split; auto. split; auto. intros [|j] st E; discriminate E.
  - destruct IH as (sts & E & HL & HP); [intros; apply H; lia|]. destruct (H n ltac:(lia)) as (st & ES & PS).
    exists (sts ++ [st]). replace (Z.of_nat (S n)) with (Z.of_nat n + 1) by lia. rewrite range_snoc, forloop_app, E by lia. cbn [obind].
    rewrite forloop_cons, ES. cbn [obind]. split; auto. rewrite app_length. cbn [length]. split; [lia|].
    intros j st' Hj. destruct (Nat.lt_ge_cases j n) as [L|L].
    + rewrite nth_error_app1 in Hj by lia. auto.
    + rewrite nth_error_app2 in Hj by lia. destruct (j - length sts)%nat eqn:EJ; cbn in Hj; [|destruct n0; discriminate].
      injection Hj as <-. replace j with n by lia. auto.
Qed.

Theorem BasicStatistics2D_ok ex values L (t : Z -> team) : Forall (fun c => length c = L) values ->
  (forall j, 0 <= j < Z.of_nat L -> covers (t j) (length values)) ->
  exists sts, BasicStatistics2D feq sqrt values (Z.of_nat (length values)) (Z.of_nat L) ex t = Ok sts /\ length sts = L /\
  forall j st, nth_error sts j = Some st ->
  (valid feq ex (column values j) <> [] -> Forall in_float_range (valid feq ex (column values j)) -> stats_of sqrt (valid feq ex (column values j)) st) /\
  (valid feq ex (column values j) = [] -> st = mkStats 0 None MISSINGFLOAT MAXIMUMFLOAT None (MISSINGFLOAT - MAXIMUMFLOAT)%Q).
Proof using Type.
  intros HF HT. unfold BasicStatistics2D.
  replace (repeat acc0 (Z.to_nat (Z.of_nat L))) with (map (fun j => fold_left (acc_step feq ex) (column [] j) acc0) (seq 0 L)).
  2:{ rewrite Nat2Z.id. clear. cbn [column map fold_left]. generalize 0%nat as k. induction L as [|L IH]; intros k; cbn; [auto|f_equal; apply IH]. }
  pose proof (rows_pass ex values L HF values [] eq_refl) as E. cbn [length] in E. change (Z.of_nat 0) with 0 in E. rewrite E. cbn [obind]. clear E.
  set (accs := map _ (seq 0 L)).
  set (F := fun j : Z => obind (aget accs j) (fun a => finish ex (fun i => aget2 values (Z.of_nat i) j) a (t j))).
  rewrite (forloop_ext _ (fun out j => obind (F j) (fun st => Ok (out ++ [st])))).
  2:{ intros out j _. unfold F. destruct (aget accs j) as [[[[mx mn] n] s]| |]; cbn [obind finish]; auto.
      destruct (reduce _ _ _ _ _); auto. }
  apply collect. intros j Hj. unfold F. rewrite aget_nat. unfold accs.
  rewrite nth_error_map, (nth_error_nth' (seq 0 L) 0%nat) by (rewrite seq_length; auto). rewrite seq_nth by auto. cbn [option_map obind Nat.add].
  apply finish_ok.
  - unfold column. rewrite map_length. apply HT. lia.
  - intros i. unfold aget2. rewrite aget_nat. unfold column. rewrite nth_error_map.
    destruct (nth_error values i) as [c|] eqn:E; cbn [obind option_map]; auto.
    assert (Lc : length c = L) by (rewrite Forall_forall in HF; apply HF; eapply nth_error_In; eauto).
    rewrite aget_nat. rewrite (nth_error_nth' c 0%Q) by lia. auto.
Qed.
End Stats.
