(** Proofs about tables (Array2DModel): every program that means something for tables
    as values does the same in memory. *)
From Coq Require Import ZArith List Bool Lia Permutation.
From Verif Require Import Base ListLib RasterModel RasterSpec ArrayModel ArrayProofs SubsetProofs Array2DModel Array2DSpec.
Import ListNotations.
Open Scope Z_scope.
Open Scope outcome_scope.

Section P.
Context {T : Type} (dflt : T).
Implicit Types h : heap T.

Lemma zfill (stp : heap T -> Z -> outcome (heap T)) b vals h d0 n :
  nth_error h b = Some (Some d0) -> length d0 = length vals -> n = Z.of_nat (length vals) ->
  (forall d i v, length d = length vals -> nth_error vals i = Some v ->
     stp (upd h b (Some d)) (Z.of_nat i) = store (upd h b (Some d)) (Some (b, 0)) (Z.of_nat i) v) ->
  ofold stp (zseq n) h = Ok (upd h b (Some vals)).
Proof.
  intros H HL -> HS. unfold zseq. rewrite ofold_map.
  apply (fill_loop (fun h i => stp h (Z.of_nat i)) b vals h _ d0); auto. rewrite Nat2Z.id. apply Permutation_refl.
Qed.

Lemma create_ok h r c v : 0 <= r ->
  create2DArray true true h r c v =
  Ok (h ++ [Some (map (fun i => CPtr (S (length h)) (i * c)) (zseq r)); Some (repeat (CVal v) (Z.to_nat (u32 (r * c))))], Some (length h, 0)).
Proof.
  intros Hr. unfold create2DArray, alloc. assert (Hn : 0 <= u32 (r * c)) by (apply Z.mod_pos_bound; lia).
  set (n := u32 (r * c)) in *.
  destruct (Z.leb_spec 0 r); [|lia]. destruct (Z.leb_spec 0 n); [|lia]. cbn [andb].
  set (h1 := h ++ [Some (repeat CUndef (Z.to_nat r))]).
  assert (L1 : length h1 = S (length h)) by (unfold h1; rewrite app_length; cbn; lia).
  rewrite (zfill _ (length h1) (repeat (CVal v) (Z.to_nat n)) _ (repeat CUndef (Z.to_nat n))).
  2:{ apply nth_snoc. } 2:{ rewrite !repeat_length; auto. } 2:{ rewrite repeat_length; lia. }
  2:{ intros d i x Hd Hx. apply nth_error_In, repeat_spec in Hx. subst. auto. }
  cbn [obind]. rewrite upd_snoc.
  rewrite (zfill _ (length h) (map (fun i => CPtr (S (length h)) (i * c)) (zseq r)) _ (repeat CUndef (Z.to_nat r))).
  - cbn [obind]. f_equal. f_equal. unfold h1. rewrite <- app_assoc. cbn [app].
    clear. induction h as [|x h IH]; cbn [app length upd]; auto. f_equal.
    change (upd (h ++ [Some (repeat CUndef (Z.to_nat r)); Some (repeat (CVal v) (Z.to_nat n))]) (length h)
       (Some (map (fun i => CPtr (S (S (length h))) (i * c)) (zseq r))) = h ++ [Some (map (fun i => CPtr (S (S (length h))) (i * c)) (zseq r)); Some (repeat (CVal v) (Z.to_nat n))]).
    generalize (Some (map (fun i : Z => CPtr (S (S (length h))) (i * c)) (zseq r)) : option (list (cell T))). intros y.
    clear. induction h as [|x h IH]; cbn [app length upd]; auto. f_equal. auto.
  - rewrite nth_error_app1 by lia. apply nth_snoc.
  - rewrite repeat_length, map_length, zseq_length. auto.
  - rewrite map_length, zseq_length. lia.
  - intros d i x Hd Hx. rewrite nth_error_map in Hx. destruct (nth_error (zseq r) i) as [z|] eqn:Z; [|discriminate].
    pose proof (nth_lt _ _ _ Z) as Z'. rewrite zseq_length in Z'. rewrite zseq_nth_nat in Z by auto. cbn in Hx.
    rewrite L1, Z.add_0_l. congruence.
Qed.

Definition agrees (rows cols : Z) (M : list T) (f : Z -> Z -> T) : Prop :=
  forall r c, 0 <= r < rows -> 0 <= c < cols -> nth_error M (Z.to_nat (r * cols + c)) = Some (f r c).
Definition good r c : Prop := 0 < r < 2 ^ 32 /\ 0 < c < 2 ^ 32 /\ r * c < 2 ^ 32.

(** [h'] is [h] and one new table. *)
Definition grown h h' r c M : Prop :=
  length h' = S (S (length h)) /\ (forall b, (b < length h)%nat -> nth_error h' b = nth_error h b) /\
  mat h' (Some (length h, 0)) r c (length h) (S (length h)) M.

Lemma grown_app h r c M : 0 <= r -> 0 <= c -> Z.of_nat (length M) = r * c ->
  grown h (h ++ [Some (map (fun i => CPtr (S (length h)) (i * c)) (zseq r)); Some (map CVal M)]) r c M.
Proof.
  intros Hr Hc HL. split; [rewrite app_length; cbn; lia|]. split; [intros b Hb; apply nth_error_app1; auto|].
  split; auto. split; [lia|]. split; auto. split; [|split]; auto.
  - rewrite nth_error_app2, Nat.sub_diag by lia. auto.
  - rewrite nth_error_app2 by lia. replace (S (length h) - length h)%nat with 1%nat by lia. auto.
Qed.

Lemma u32_small z : 0 <= z < 2 ^ 32 -> u32 z = z.
Proof. intros H. apply Z.mod_small. auto. Qed.

Lemma create_grown h r c v : good r c -> exists h', create2DArray true true h r c v = Ok (h', Some (length h, 0)) /\
  grown h h' r c (repeat v (Z.to_nat (r * c))) /\ agrees r c (repeat v (Z.to_nat (r * c))) (fun _ _ => v).
Proof.
  intros (Hr & Hc & Hp). rewrite create_ok by lia. eexists. split; [reflexivity|]. rewrite u32_small by nia. split.
  - rewrite <- map_rep. apply grown_app; try lia. rewrite repeat_length. nia.
  - intros x y Hx Hy. pose proof (cell_range r c x y Hx Hy).
    destruct (nth_error (repeat v (Z.to_nat (r * c))) (Z.to_nat (x * c + y))) eqn:E.
    + apply nth_error_In, repeat_spec in E. congruence.
    + apply nth_error_None in E. rewrite repeat_length in E. lia.
Qed.

Lemma copy_grown h r c p pb pool M f : good r c -> mat h p r c pb pool M -> agrees r c M f ->
  exists h', CopyConstruct dflt true true h (mkArr2 p r c) = Ok (h', mkArr2 (Some (length h, 0)) r c) /\ grown h h' r c M.
Proof.
  intros G HM HA. pose proof G as (Hr & Hc & Hp). unfold CopyConstruct. cbn [a_rows a_cols a_ptr].
  rewrite create_ok by lia. cbn [obind]. rewrite (u32_small (r * c)) by nia. rewrite (u32_small (r - 1)) by lia.
  set (h1 := h ++ _). pose proof HM as (Ep & Hne & _ & Hpb & Hpl & HL).
  pose proof (nth_lt _ _ _ Hpb) as Bpb. pose proof (nth_lt _ _ _ Hpl) as Bpl.
  assert (G1 : grown h h1 r c (repeat dflt (Z.to_nat (r * c)))).
  { unfold h1. rewrite <- map_rep. apply grown_app; try lia. rewrite repeat_length. nia. }
  assert (H1 : mat h1 p r c pb pool M).
  { destruct G1 as (_ & A & _). split; auto. split; auto. split; [lia|]. rewrite !A by auto. auto. }
  rewrite (mat_row _ _ _ _ _ _ _ 0 H1) by lia. cbn [obind]. rewrite (mat_row _ _ _ _ _ _ _ (r - 1) H1) by lia. cbn [obind].
  destruct G1 as (GL & GA & GM). rewrite (mat_row _ _ _ _ _ _ _ 0 GM) by lia. cbn [obind]. rewrite Nat.eqb_refl.
  rewrite !Z.mul_0_l. replace ((r - 1) * c + c - 0) with (r * c) by nia.
  rewrite (zfill _ (S (length h)) (map CVal M) _ (map CVal (repeat dflt (Z.to_nat (r * c))))).
  - cbn [obind]. eexists. split; [reflexivity|]. split; [rewrite upd_length; auto|].
    split; [intros b Hb; rewrite nth_upd_other by lia; auto|].
    destruct GM as (_ & _ & _ & Q1 & Q2 & Q3). split; auto. split; [lia|]. split; [lia|].
    split; [rewrite nth_upd_other by lia; auto|]. split; auto. apply nth_upd_same. lia.
  - apply GM.
  - rewrite !map_length, repeat_length. nia.
  - rewrite map_length. lia.
  - intros d i v Hd Hv. destruct H1 as (_ & _ & _ & _ & Q & _). unfold load_val.
    rewrite nth_error_map in Hv. destruct (nth_error M i) as [x|] eqn:E; [|discriminate]. cbn in Hv.
    rewrite (load_ok _ pool (map CVal M) _ _ (CVal x)); try lia.
    + cbn [obind]. congruence.
    + rewrite nth_upd_other by lia. auto.
    + rewrite Z.add_0_l, Nat2Z.id, nth_error_map, E. auto.
Qed.

(** ** The invariant *)
Definition ok1 h (v : option arr2) (t : option (@table T)) (b : option (nat * nat)) : Prop :=
  match v, t with
  | None, None => b = None
  | Some a, Some t =>
      a_rows a = t_rows t /\ a_cols a = t_cols t /\
      match t_elems t with
      | None => a_ptr a = None /\ b = None
      | Some f => good (t_rows t) (t_cols t) /\ exists pb pool M, b = Some (pb, pool) /\
          mat h (a_ptr a) (t_rows t) (t_cols t) pb pool M /\ agrees (t_rows t) (t_cols t) M f
      end
  | _, _ => False
  end.
Definition blocks := nat -> option (nat * nat).
Definition has (B : blocks) i b : Prop := exists pb pool, B i = Some (pb, pool) /\ (b = pb \/ b = pool).
Definition inv h V (A : @vars T) (B : blocks) : Prop :=
  (forall k, ok1 h (V k) (A k) (B k)) /\
  (forall i j b, has B i b -> has B j b -> i = j) /\
  (forall b c, nth_error h b = Some (Some c) -> exists i, has B i b).

Definition putB (f : blocks) (i : nat) (o : option (nat * nat)) : blocks := fun k => if Nat.eqb k i then o else f k.

Lemma ok1_agree h h' v t b : ok1 h v t b -> (forall x, (exists pb pool, b = Some (pb, pool) /\ (x = pb \/ x = pool)) -> nth_error h' x = nth_error h x) ->
  ok1 h' v t b.
Proof.
  unfold ok1. destruct v as [a|], t as [t|]; auto. intros (E1 & E2 & H) HA. split; auto. split; auto.
  destruct (t_elems t) as [f|]; auto. destruct H as (G & pb & pool & M & -> & HM & Hf). split; auto.
  exists pb, pool, M. split; auto. split; auto. destruct HM as (Q1 & Q2 & Q3 & Q4 & Q5 & Q6).
  split; auto. split; auto. split; auto. rewrite !HA by (do 2 eexists; split; eauto). auto.
Qed.

Lemma ok1_has h v t b x : ok1 h v t b -> (exists pb pool, b = Some (pb, pool) /\ (x = pb \/ x = pool)) -> exists c, nth_error h x = Some (Some c).
Proof.
  unfold ok1. intros H (pb & pool & -> & Hx). destruct v as [a|], t as [t|]; try discriminate; try contradiction.
  destruct H as (_ & _ & H). destruct (t_elems t) as [f|]; [|destruct H; discriminate].
  destruct H as (_ & pb' & pool' & M & E & (_ & _ & _ & Q4 & Q5 & _) & _). injection E as <- <-. destruct Hx; subst; eauto.
Qed.

Definition drop h (v : option arr2) : outcome (heap T) := match v with None => Ok h | Some a => Destruct h a end.

(** Freeing what a variable holds. *)
Lemma drop_ok h v t b : ok1 h v t b -> exists h', drop h v = Ok h' /\ length h' = length h /\
  (forall x, ~ (exists pb pool, b = Some (pb, pool) /\ (x = pb \/ x = pool)) -> nth_error h' x = nth_error h x) /\
  (forall x, (exists pb pool, b = Some (pb, pool) /\ (x = pb \/ x = pool)) -> nth_error h' x = Some None).
Proof.
  intros H. unfold ok1 in H. destruct v as [a|], t as [t|]; try contradiction.
  2:{ subst. exists h. cbn. repeat split; auto. intros x (? & ? & ? & ?); discriminate. }
  destruct H as (_ & _ & H). destruct (t_elems t) as [f|].
  2:{ destruct H as (E & ->). cbn. unfold Destruct. rewrite E. exists h. repeat split; auto. intros x (? & ? & ? & ?); discriminate. }
  destruct H as (G & pb & pool & M & -> & HM & _). cbn [drop]. unfold Destruct. pose proof HM as (E & Hne & _ & Q4 & Q5 & _).
  assert (HR := mat_row _ _ _ _ _ _ _ 0 HM ltac:(destruct G; lia)). rewrite E in HR |- *. cbn [obind]. rewrite HR. cbn [obind]. rewrite Z.mul_0_l.
  rewrite (free_ok _ _ _ Q5). cbn [obind]. rewrite (free_ok _ pb (map (fun i => CPtr pool (i * t_cols t)) (zseq (t_rows t)))) by (rewrite nth_upd_other; auto).
  eexists. split; [reflexivity|]. split; [rewrite !upd_length; auto|]. split.
  - intros x Hx. rewrite nth_upd_other by (intros ->; apply Hx; eauto). rewrite nth_upd_other by (intros ->; apply Hx; eauto). auto.
  - intros x (pb' & pool' & E' & Hx). injection E' as <- <-. destruct (Nat.eq_dec x pb) as [->|N].
    + apply nth_upd_same. rewrite upd_length. apply (nth_lt _ _ _ Q4).
    + rewrite nth_upd_other by auto. destruct Hx; [contradiction|subst]. apply nth_upd_same. apply (nth_lt _ _ _ Q5).
Qed.

Lemma not_has_putB B i o k b : k <> i -> has (putB B i o) k b <-> has B k b.
Proof. intros N. unfold has, putB. destruct (Nat.eqb_spec k i); [contradiction|reflexivity]. Qed.

(** A new table for variable [i], then the end of what it held. *)
Lemma inv_replace h V A B h' i r c M f : inv h V A B -> grown h h' r c M -> good r c -> agrees r c M f ->
  exists h'', drop h' (V i) = Ok h'' /\
    inv h'' (put V i (Some (mkArr2 (Some (length h, 0)) r c))) (set A i (Some (mkT r c (Some f)))) (putB B i (Some (length h, S (length h)))).
Proof.
  intros (I1 & I2 & I3) (GL & GA & GM) G HA.
  assert (Hlt : forall k b, has B k b -> (b < length h)%nat).
  { intros k b Hb. destruct (ok1_has _ _ _ _ b (I1 k) Hb) as (x & Hx). apply (nth_lt _ _ _ Hx). }
  assert (O1 : forall k, ok1 h' (V k) (A k) (B k)).
  { intros k. apply (ok1_agree h); auto. intros x Hx. apply GA. apply (Hlt k x Hx). }
  destruct (drop_ok _ _ _ _ (O1 i)) as (h'' & D & DL & D1 & D2). exists h''. split; auto.
  assert (Hnew : forall b, b = length h \/ b = S (length h) -> ~ has B i b).
  { intros b Hb Hh. apply Hlt in Hh. lia. }
  assert (GM' : mat h'' (Some (length h, 0)) r c (length h) (S (length h)) M).
  { destruct GM as (Q1 & Q2 & Q3 & Q4 & Q5 & Q6). split; auto. split; auto. split; auto.
    rewrite !D1; auto; [apply (Hnew (S (length h)))|apply (Hnew (length h))]; auto. }
  split; [|split].
  - intros k. unfold put, set, putB. destruct (Nat.eqb_spec k i) as [->|N].
    + cbn. split; auto. split; auto. split; auto. eauto 8.
    + apply (ok1_agree h'); auto. intros x Hx. apply D1. intros Hx'. apply N. apply (I2 k i x); auto.
  - intros k l b. destruct (Nat.eq_dec k i) as [->|Nk], (Nat.eq_dec l i) as [->|Nl]; auto.
    + rewrite (not_has_putB _ _ _ l) by auto. intros (pb & pool & E & Hb) Hl. unfold putB in E. rewrite Nat.eqb_refl in E. injection E as <- <-.
      apply Hlt in Hl. lia.
    + rewrite (not_has_putB _ _ _ k) by auto. intros Hl (pb & pool & E & Hb). unfold putB in E. rewrite Nat.eqb_refl in E. injection E as <- <-.
      apply Hlt in Hl. lia.
    + rewrite !not_has_putB by auto. apply I2.
  - intros b x Hx. pose proof (nth_lt _ _ _ Hx) as Hb. rewrite DL, GL in Hb.
    destruct (Nat.lt_ge_cases b (length h)) as [Lb|Lb].
    + destruct (nth_error h b) as [[y|]|] eqn:E.
      * destruct (I3 _ _ E) as (k & Hk). destruct (Nat.eq_dec k i) as [->|N].
        -- rewrite (D2 b Hk) in Hx. discriminate.
        -- exists k. apply not_has_putB; auto.
      * assert (NH : ~ has B i b). { intros Hh. destruct (ok1_has _ _ _ _ b (I1 i) Hh) as (z & Hz). congruence. }
        rewrite (D1 b NH), GA in Hx by auto. congruence.
      * apply nth_error_None in E. lia.
    + exists i. exists (length h), (S (length h)). unfold putB. rewrite Nat.eqb_refl. split; auto. lia.
Qed.

Lemma inv_end h V A B i : inv h V A B -> exists h', drop h (V i) = Ok h' /\ inv h' (put V i None) (set A i None) (putB B i None).
Proof.
  intros (I1 & I2 & I3). destruct (drop_ok _ _ _ _ (I1 i)) as (h' & D & DL & D1 & D2). exists h'. split; auto. split; [|split].
  - intros k. unfold put, set, putB. destruct (Nat.eqb_spec k i) as [->|N]; [reflexivity|].
    apply (ok1_agree h); auto. intros x Hx. apply D1. intros Hx'. apply N. apply (I2 k i x); auto.
  - intros k l b. destruct (Nat.eq_dec k i) as [->|Nk]; [intros (? & ? & E & _); unfold putB in E; rewrite Nat.eqb_refl in E; discriminate|].
    destruct (Nat.eq_dec l i) as [->|Nl]; [intros _ (? & ? & E & _); unfold putB in E; rewrite Nat.eqb_refl in E; discriminate|].
    rewrite !not_has_putB by auto. apply I2.
  - intros b x Hx. assert (NH : ~ has B i b) by (intros Hh; rewrite (D2 b Hh) in Hx; discriminate).
    rewrite (D1 b NH) in Hx. destruct (I3 _ _ Hx) as (k & Hk). exists k. apply not_has_putB; auto. intros ->. contradiction.
Qed.

(** Exchanging what variables hold. *)
Lemma inv_perm h V A B V' A' B' (s : nat -> nat) : inv h V A B -> (forall k, s (s k) = k) ->
  (forall k, V' k = V (s k)) -> (forall k, A' k = A (s k)) -> (forall k, B' k = B (s k)) -> inv h V' A' B'.
Proof.
  intros (I1 & I2 & I3) S1 HV HA HB. assert (HH : forall k b, has B' k b <-> has B (s k) b) by (intros; unfold has; rewrite HB; reflexivity).
  split; [|split].
  - intros k. rewrite HV, HA, HB. apply I1.
  - intros i j b. rewrite !HH. intros H1 H2. rewrite <- (S1 i), <- (S1 j). f_equal. eapply I2; eauto.
  - intros b c Hc. destruct (I3 _ _ Hc) as (i & Hi). exists (s i). apply HH. rewrite S1. auto.
Qed.
Definition tau (i j k : nat) : nat := if Nat.eqb k i then j else if Nat.eqb k j then i else k.
Lemma tau_tau i j k : tau i j (tau i j k) = k.
Proof.
  unfold tau. destruct (Nat.eqb_spec k i) as [->|N1].
  - destruct (Nat.eqb_spec j i) as [->|N2]; auto. rewrite Nat.eqb_refl. auto.
  - destruct (Nat.eqb_spec k j) as [->|N2]; [rewrite Nat.eqb_refl; auto|].
    destruct (Nat.eqb_spec k i); [contradiction|]. destruct (Nat.eqb_spec k j); [contradiction|]. auto.
Qed.

(** A variable that holds no blocks. *)
Lemma inv_empty h V A B i v t : inv h V A B -> B i = None -> ok1 h v t None -> inv h (put V i v) (set A i t) B.
Proof.
  intros (I1 & I2 & I3) HB Ho. split; [|split]; auto. intros k. unfold put, set. destruct (Nat.eqb_spec k i) as [->|]; auto.
  rewrite HB. auto.
Qed.

Lemma inv_ext h V V' A A' B B' : inv h V A B -> (forall k, V' k = V k) -> (forall k, A' k = A k) -> (forall k, B' k = B k) -> inv h V' A' B'.
Proof. intros. eapply (inv_perm h V A B V' A' B' (fun k => k)); auto. Qed.

Lemma ok1_some h v t b : ok1 h v (Some t) b -> exists a, v = Some a /\ a_rows a = t_rows t /\ a_cols a = t_cols t.
Proof. unfold ok1. destruct v as [a|]; [|contradiction]. intros (? & ? & _). eauto. Qed.
Lemma ok1_none h v b : ok1 h v None b -> v = None /\ b = None.
Proof. unfold ok1. destruct v; [contradiction|]. auto. Qed.

Lemma Construct_grown h r c v : good r c -> exists h', Construct true true h r c v = Ok (h', mkArr2 (Some (length h, 0)) r c) /\
  grown h h' r c (repeat v (Z.to_nat (r * c))) /\ agrees r c (repeat v (Z.to_nat (r * c))) (fun _ _ => v).
Proof.
  intros G. unfold Construct. pose proof G as (Hr & Hc & _). destruct (Z.leb_spec r 0); [lia|]. destruct (Z.leb_spec c 0); [lia|]. cbn [orb].
  destruct (create_grown h r c v G) as (h' & E & HG). rewrite E. cbn. eauto.
Qed.
Lemma Construct_zero ok1 ok2 h r c v : sizes r c -> r = 0 \/ c = 0 -> Construct ok1 ok2 h r c v = Throw.
Proof. intros [Hr Hc] H. unfold Construct. destruct (Z.leb_spec r 0); auto. destruct (Z.leb_spec c 0); auto. lia. Qed.
Lemma sizes_good r c : sizes r c -> r <> 0 -> c <> 0 -> r * c < 2 ^ 32 -> good r c.
Proof. unfold sizes, good. lia. Qed.

Lemma cell_inj n x y r c : 0 <= y < n -> 0 <= c < n -> x * n + y = r * n + c -> x = r /\ y = c.
Proof.
  intros Hy Hc E. assert (x = r); [|subst; lia]. destruct (Z.lt_trichotomy x r) as [L|[L|L]]; auto; exfalso.
  - assert ((x + 1) * n <= r * n) by (apply Z.mul_le_mono_nonneg_r; lia). lia.
  - assert ((r + 1) * n <= x * n) by (apply Z.mul_le_mono_nonneg_r; lia). lia.
Qed.

Lemma ok1_filled h v t b : ok1 h v (Some t) b -> filled t -> exists a f pb pool M,
  v = Some a /\ a = mkArr2 (a_ptr a) (t_rows t) (t_cols t) /\ t_elems t = Some f /\ t = mkT (t_rows t) (t_cols t) (Some f) /\ b = Some (pb, pool) /\ good (t_rows t) (t_cols t) /\
  mat h (a_ptr a) (t_rows t) (t_cols t) pb pool M /\ agrees (t_rows t) (t_cols t) M f.
Proof.
  intros H Hf. unfold ok1 in H. destruct v as [a|]; [|contradiction]. destruct H as (E1 & E2 & H). unfold filled in Hf.
  destruct (t_elems t) as [f|] eqn:E; [|congruence]. destruct H as (G & pb & pool & M & -> & HM & HA).
  exists a, f, pb, pool, M. repeat split; auto; try apply G; try apply HM; [destruct a; cbn in *; congruence|destruct t; cbn in *; congruence].
Qed.

Lemma copy_step h V A B i j t : inv h V A B -> A j = Some t -> filled t ->
  exists h1 a h2 B', V j = Some a /\ CopyConstruct dflt true true h a = Ok (h1, mkArr2 (Some (length h, 0)) (t_rows t) (t_cols t)) /\
    drop h1 (V i) = Ok h2 /\ inv h2 (put V i (Some (mkArr2 (Some (length h, 0)) (t_rows t) (t_cols t)))) (set A i (Some t)) B'.
Proof.
  intros I HJ Hf. pose proof I as (I1 & _). specialize (I1 j). rewrite HJ in I1.
  destruct (ok1_filled _ _ _ _ I1 Hf) as (a & f & pb & pool & M & Ea & Er & Ef & Et & Eb & G & HM & HA).
  destruct (copy_grown _ _ _ _ _ _ _ _ G HM HA) as (h1 & C & HG). rewrite <- Er in C.
  destruct (inv_replace _ _ _ _ h1 i _ _ _ f I HG G HA) as (h2 & D & I'). rewrite <- Et in I'. eauto 10.
Qed.

Lemma step_ok s A B o A' : inv (s_heap s) (s_var s) A B -> means A o A' ->
  exists s' B', step dflt true s o = Ok s' /\ inv (s_heap s') (s_var s') A' B'.
Proof.
  destruct s as [h V]. cbn [s_heap s_var]. intros I H. pose proof I as (I1 & I2 & I3).
  destruct H as [A i H0|A i r c v H0 HS Hr Hc Hp|A i r c v H0 HS Hz|A i j t H0 HJ Hf|A i j t H0 HJ|A i j t u N HI HJ Hf|A i t HI|A i j t u N HI HJ|A i t HI
    |A i r c v t HI HS Hr Hc Hp|A i r c v t HI HS Hz|A i r c v t f HI Hf Hr Hc|A i r c t f HI Hf Hr Hc|A i t HI]; cbn [step]; unfold fresh, get; cbn [s_var s_heap].
  - pose proof (I1 i) as Oi. rewrite H0 in Oi. destruct (ok1_none _ _ _ Oi) as [Ev Eb]. rewrite Ev. do 2 eexists. split; [reflexivity|].
    cbn [s_heap s_var]. apply inv_empty; eauto. cbn. auto.
  - pose proof (I1 i) as Oi. rewrite H0 in Oi. destruct (ok1_none _ _ _ Oi) as [Ev Eb]. rewrite Ev.
    destruct (Construct_grown h r c v (sizes_good _ _ HS Hr Hc Hp)) as (h' & E & HG & HA). rewrite E. do 2 eexists. split; [reflexivity|]. cbn [s_heap s_var].
    destruct (inv_replace _ _ _ _ h' i _ _ _ _ I HG (sizes_good _ _ HS Hr Hc Hp) HA) as (h2 & D & I'). rewrite Ev in D. injection D as <-. exact I'.
  - pose proof (I1 i) as Oi. rewrite H0 in Oi. destruct (ok1_none _ _ _ Oi) as [Ev Eb]. rewrite Ev. rewrite Construct_zero by auto. eauto.
  - pose proof (I1 i) as Oi. rewrite H0 in Oi. destruct (ok1_none _ _ _ Oi) as [Ev Eb]. rewrite Ev.
    destruct (copy_step _ _ _ _ i j t I HJ Hf) as (h1 & a & h2 & B' & Ea & C & D & I'). rewrite Ea. cbn [obind]. rewrite C. cbn [obind fst snd].
    rewrite Ev in D. injection D as <-. eauto.
  - pose proof (I1 i) as Oi. rewrite H0 in Oi. destruct (ok1_none _ _ _ Oi) as [Ev Eb]. rewrite Ev.
    pose proof (I1 j) as Oj. rewrite HJ in Oj. destruct (ok1_some _ _ _ _ Oj) as (a & Ea & Er & Ec). rewrite Ea. cbn [obind]. unfold MoveConstruct.
    assert (N : i <> j) by (intros ->; congruence).
    assert (P : inv h (put (put V i (Some a)) j None) (set (set A i (Some t)) j None) (putB (putB B i (B j)) j None)).
    { apply (inv_perm h V A B _ _ _ (tau i j) I (tau_tau i j)); intros k; unfold put, set, putB, tau;
      destruct (Nat.eqb_spec k j), (Nat.eqb_spec k i); subst; congruence. }
    do 2 eexists. split; [reflexivity|]. cbn [s_heap s_var].
    eapply inv_ext; [apply (inv_empty _ _ _ _ j (Some (mkArr2 None (a_rows a) (a_cols a))) (Some (mkT (t_rows t) (t_cols t) None)) P)| | |reflexivity].
    + unfold putB. rewrite Nat.eqb_refl. auto.
    + cbn. auto.
    + intros k. unfold put. destruct (Nat.eqb_spec k j), (Nat.eqb_spec k i); subst; congruence.
    + intros k. unfold set. destruct (Nat.eqb_spec k j), (Nat.eqb_spec k i); subst; congruence.
  - pose proof (I1 i) as Oi. rewrite HI in Oi. destruct (ok1_some _ _ _ _ Oi) as (a & Ea & _). rewrite Ea. cbn [obind].
    destruct (copy_step _ _ _ _ i j t I HJ Hf) as (h1 & b & h2 & B' & Eb & C & D & I'). rewrite Eb. cbn [obind].
    destruct (Nat.eqb_spec i j); [contradiction|]. rewrite C. cbn [obind fst snd]. rewrite Ea in D. cbn [drop] in D. rewrite D. cbn [obind]. eauto.
  - pose proof (I1 i) as Oi. rewrite HI in Oi. destruct (ok1_some _ _ _ _ Oi) as (a & Ea & _). rewrite Ea. cbn [obind]. rewrite Nat.eqb_refl. eauto.
  - pose proof (I1 i) as Oi. rewrite HI in Oi. destruct (ok1_some _ _ _ _ Oi) as (a & Ea & _). rewrite Ea. cbn [obind].
    pose proof (I1 j) as Oj. rewrite HJ in Oj. destruct (ok1_some _ _ _ _ Oj) as (b & Eb & _). rewrite Eb. cbn [obind].
    destruct (Nat.eqb_spec i j); [contradiction|]. exists (mkState h (put (put V i (Some b)) j (Some a))), (fun k => B (tau i j k)). split; [reflexivity|]. cbn [s_heap s_var].
    apply (inv_perm h V A B _ _ _ (tau i j) I (tau_tau i j)); auto; intros k; unfold put, set, tau;
    destruct (Nat.eqb_spec k j), (Nat.eqb_spec k i); subst; congruence.
  - pose proof (I1 i) as Oi. rewrite HI in Oi. destruct (ok1_some _ _ _ _ Oi) as (a & Ea & _). rewrite Ea. cbn [obind]. rewrite Nat.eqb_refl. eauto.
  - pose proof (I1 i) as Oi. rewrite HI in Oi. destruct (ok1_some _ _ _ _ Oi) as (a & Ea & _). rewrite Ea. cbn [obind].
    destruct (Construct_grown h r c v (sizes_good _ _ HS Hr Hc Hp)) as (h' & E & HG & HA). rewrite E.
    destruct (inv_replace _ _ _ _ h' i _ _ _ _ I HG (sizes_good _ _ HS Hr Hc Hp) HA) as (h2 & D & I'). rewrite Ea in D. cbn [drop] in D. rewrite D. cbn [obind]. eauto.
  - pose proof (I1 i) as Oi. rewrite HI in Oi. destruct (ok1_some _ _ _ _ Oi) as (a & Ea & _). rewrite Ea. cbn [obind]. rewrite Construct_zero by auto. eauto.
  - pose proof (I1 i) as Oi. rewrite HI in Oi.
    destruct (ok1_filled _ _ _ _ Oi ltac:(unfold filled; congruence)) as (a & f' & pb & pool & M & Ea & Er & Ef & Et & Eb & G & HM & HA).
    assert (f' = f) by congruence. subst f'. rewrite Ea. cbn [obind].
    destruct (mat_write _ _ _ _ _ _ _ r c v HM Hr Hc) as (h' & W & HM' & HL & HO). rewrite W. cbn [obind].
    exists (mkState h' V), B. split; [reflexivity|]. cbn [s_heap s_var].
    assert (Hlen : length M = Z.to_nat (t_rows t * t_cols t)) by (destruct HM as (_ & _ & _ & _ & _ & Q); lia).
    split; [|split]; auto.
    + intros k. unfold set. destruct (Nat.eqb_spec k i) as [->|Nk].
      * rewrite Ea, Eb. cbn. rewrite Er. cbn. split; auto. split; auto. split; auto. exists pb, pool, (upd M (Z.to_nat (r * t_cols t + c)) v). split; auto. split; auto.
        intros x y Hx Hy. rewrite upd_nth. rewrite Hlen.
        pose proof (cell_range _ _ _ _ Hr Hc) as R1. pose proof (cell_range _ _ _ _ Hx Hy) as R2.
        destruct (Nat.eqb_spec (Z.to_nat (x * t_cols t + y)) (Z.to_nat (r * t_cols t + c))) as [EQ|NE].
        -- assert (x = r /\ y = c) as [-> ->] by (apply (cell_inj (t_cols t)); auto; lia).
           rewrite !Z.eqb_refl. cbn [andb]. destruct (Nat.ltb_spec (Z.to_nat (r * t_cols t + c)) (Z.to_nat (t_rows t * t_cols t))); [auto|lia].
        -- rewrite HA by auto. destruct (Z.eqb_spec x r), (Z.eqb_spec y c); cbn [andb]; auto. subst. contradiction.
      * apply (ok1_agree h); auto. intros x Hx. apply HO. intros ->. apply Nk. apply (I2 k i pool); auto. exists pb, pool. auto.
    + intros b x Hx. destruct (nth_error h b) as [[y|]|] eqn:E; [eauto| |].
      * assert (b <> pool). { intros ->. destruct HM as (_ & _ & _ & _ & Q & _). congruence. } rewrite HO in Hx by auto. congruence.
      * apply nth_error_None in E. pose proof (nth_lt _ _ _ Hx). lia.
  - pose proof (I1 i) as Oi. rewrite HI in Oi.
    destruct (ok1_filled _ _ _ _ Oi ltac:(unfold filled; congruence)) as (a & f' & pb & pool & M & Ea & Er & Ef & Et & Eb & G & HM & HA).
    rewrite Ea. cbn [obind]. destruct (mat_read _ _ _ _ _ _ _ r c HM Hr Hc) as (x & _ & Rd). rewrite Rd. cbn [obind]. eauto.
  - pose proof (I1 i) as Oi. rewrite HI in Oi. destruct (ok1_some _ _ _ _ Oi) as (a & Ea & _). rewrite Ea. cbn [obind].
    destruct (inv_end _ _ _ _ i I) as (h' & D & I'). rewrite Ea in D. cbn [drop] in D. rewrite D. cbn [obind]. eauto.
Qed.

Lemma run_ok : forall os s A B A', inv (s_heap s) (s_var s) A B -> mean A os A' ->
  exists s' B', run dflt true s os = Ok s' /\ inv (s_heap s') (s_var s') A' B'.
Proof.
  induction os as [|o os IH]; intros s A B A' I H; inversion H; subst; cbn [run]; eauto.
  destruct (step_ok _ _ _ _ _ I H3) as (s1 & B1 & E & I'). rewrite E. cbn [obind]. eapply IH; eauto.
Qed.

Lemma inv_start : inv (s_heap (@start T)) (s_var (@start T)) no_vars (fun _ => None).
Proof. split; [|split]; cbn; auto. - intros i j b (? & ? & ? & _). discriminate. - intros [|b] c H; discriminate. Qed.

Lemma inv_read h V A B i t f r c : inv h V A B -> A i = Some t -> t_elems t = Some f -> 0 <= r < t_rows t -> 0 <= c < t_cols t ->
  exists a, V i = Some a /\ read2 h (a_ptr a) r c = Ok (f r c).
Proof.
  intros (I1 & _) HA Hf Hr Hc. specialize (I1 i). rewrite HA in I1.
  destruct (ok1_filled _ _ _ _ I1 ltac:(unfold filled; congruence)) as (a & f' & pb & pool & M & Ea & Er & Ef & Et & Eb & G & HM & HG).
  assert (f' = f) by congruence. subst f'. exists a. split; auto. destruct (mat_read _ _ _ _ _ _ _ r c HM Hr Hc) as (x & Hx & Rd).
  rewrite (HG r c Hr Hc) in Hx. congruence.
Qed.

(** ** Counting blocks *)
Definition alive h : list nat := filter (fun b => match nth_error h b with Some (Some _) => true | _ => false end) (seq 0 (length h)).
Lemma alive_In h b : In b (alive h) <-> exists c, nth_error h b = Some (Some c).
Proof.
  unfold alive. rewrite filter_In, in_seq. split.
  - intros (_ & H). destruct (nth_error h b) as [[c|]|]; try discriminate. eauto.
  - intros (c & H). rewrite H. pose proof (nth_lt _ _ _ H). split; auto; lia.
Qed.
Lemma alive_NoDup h : NoDup (alive h).
Proof. apply NoDup_filter, seq_NoDup. Qed.
Definition held (B : blocks) (i : nat) : list nat := match B i with Some (pb, pool) => [pb; pool] | None => [] end.
Lemma held_In B i b : In b (held B i) <-> has B i b.
Proof.
  unfold held, has. destruct (B i) as [[pb pool]|]; cbn; split.
  - intros H. exists pb, pool. intuition.
  - intros (x & y & E & H). injection E as <- <-. intuition.
  - contradiction.
  - intros (x & y & E & H). discriminate.
Qed.

Lemma held_NoDup h V A B l : inv h V A B -> NoDup l -> NoDup (flat_map (held B) l).
Proof.
  intros (I1 & I2 & I3). induction l as [|i l IH]; intros N; cbn; [constructor|]. inversion N; subst.
  assert (Hi : NoDup (held B i)).
  { unfold held. destruct (B i) as [[pb pool]|] eqn:E; [|constructor].
    specialize (I1 i). unfold ok1 in I1. rewrite E in I1. destruct (V i) as [a|], (A i) as [t|]; try discriminate; try contradiction.
    destruct I1 as (_ & _ & I1). destruct (t_elems t); [|destruct I1; discriminate].
    destruct I1 as (_ & pb' & pool' & M & E' & (_ & Hne & _) & _). injection E' as <- <-.
    constructor; [cbn; intuition|constructor; auto; constructor]. }
  assert (G : forall l', (forall b, In b l' -> ~ In b (flat_map (held B) l)) -> NoDup l' -> NoDup (l' ++ flat_map (held B) l)).
  { induction l' as [|b l' IH']; intros HD HN; cbn; auto. inversion HN; subst. constructor.
    - rewrite in_app_iff. intros [?|?]; [contradiction|]. apply (HD b); [left; auto|auto].
    - apply IH'; auto. intros b' Hb'. apply HD. right. auto. }
  apply G; auto. intros b Hb Hc. apply in_flat_map in Hc. destruct Hc as (k & Hk & Hb'). apply held_In in Hb, Hb'.
  assert (i = k) by (eapply I2; eauto). subst. contradiction.
Qed.

Lemma inv_count h V A B l : inv h V A B -> NoDup l -> (forall i, In i l <-> exists t, A i = Some t /\ filled t) ->
  length (alive h) = (2 * length l)%nat.
Proof.
  intros I N HL. pose proof I as (I1 & I2 & I3).
  assert (HB : forall i, In i l <-> B i <> None).
  { intros i. rewrite HL. specialize (I1 i). unfold ok1 in I1. split.
    - intros (t & E & Hf). rewrite E in I1. unfold filled in Hf. destruct (V i); [|contradiction]. destruct I1 as (_ & _ & I1).
      destruct (t_elems t); [|congruence]. destruct I1 as (_ & pb & pool & M & Eb & _). congruence.
    - intros Hb. destruct (V i), (A i) as [t|]; try contradiction. destruct I1 as (_ & _ & I1). exists t. split; auto. unfold filled.
      destruct (t_elems t); [congruence|]. destruct I1; contradiction. }
  assert (P : forall b, In b (alive h) <-> In b (flat_map (held B) l)).
  { intros b. rewrite alive_In, in_flat_map. split.
    - intros (c & Hc). destruct (I3 _ _ Hc) as (i & Hi). exists i. split; [|apply held_In; auto]. apply HB. destruct Hi as (? & ? & E & _). congruence.
    - intros (i & _ & Hb). apply held_In in Hb. eapply ok1_has; [apply (I1 i)|exact Hb]. }
  rewrite (Permutation_length (NoDup_Permutation (alive_NoDup h) (held_NoDup _ _ _ _ _ I N) P)).
  assert (HH : forall i, In i l -> B i <> None) by (intros i; apply HB). clear -HH.
  induction l as [|i l IH]; auto. cbn [flat_map]. rewrite app_length, IH by (intros; apply HH; right; auto). unfold held at 1.
    destruct (B i) as [[pb pool]|] eqn:E; [cbn; lia|]. destruct (HH i); [left; auto|auto].
Qed.

(** ** Programs that mean nothing *)
Lemma run_app m (s : state T) os o : run dflt m s (os ++ [o]) = let* s' := run dflt m s os in step dflt m s' o.
Proof.
  revert s. induction os as [|a os IH]; intros s; cbn [run app obind].
  - destruct (step dflt m s o); auto.
  - destruct (step dflt m s a); cbn [obind]; auto.
Qed.

Lemma copy_empty h a : a_ptr a = None -> 0 <= a_rows a -> CopyConstruct dflt true true h a = UB.
Proof. intros E Hr. unfold CopyConstruct. rewrite create_ok by auto. cbn [obind]. rewrite E. reflexivity. Qed.

(** No number of rows is ever negative. *)
Definition rows_ok (A : @vars T) : Prop := forall i t, A i = Some t -> 0 <= t_rows t.
Lemma means_rows A o A' : means A o A' -> rows_ok A -> rows_ok A'.
Proof.
  intros H HR. assert (G : forall A i o, rows_ok A -> (forall t, o = Some t -> 0 <= t_rows t) -> rows_ok (set A i o)).
  { intros A1 i p H1 H2 k w. unfold set. destruct (Nat.eqb k i); [apply H2|apply H1]. }
  destruct H; auto; repeat apply G; auto; intros w E; try discriminate; injection E as <-; cbn [t_rows]; eauto; unfold sizes in *; lia.
Qed.
Lemma mean_rows A os A' : mean A os A' -> rows_ok A -> rows_ok A'.
Proof. induction 1; auto. intros. apply IHmean. eapply means_rows; eauto. Qed.

Lemma copy_of_empty os A j t i : mean no_vars os A -> A j = Some t -> ~ filled t ->
  (A i = None -> run dflt true start (os ++ [CopyOf i j]) = UB) /\ (A i <> None -> i <> j -> run dflt true start (os ++ [Assign i j]) = UB).
Proof.
  intros HM HJ Hf. destruct (run_ok _ _ _ _ _ inv_start HM) as (s & B & E & I). rewrite !run_app, E. cbn [obind step].
  destruct I as (I1 & _ & _). pose proof (I1 j) as Oj. rewrite HJ in Oj. destruct (ok1_some _ _ _ _ Oj) as (a & Ea & Er & Ec).
  assert (Ep : a_ptr a = None). { rewrite Ea in Oj. cbn in Oj. destruct Oj as (_ & _ & Oj). unfold filled in Hf. destruct (t_elems t); [exfalso; apply Hf; discriminate|tauto]. }
  assert (Hr : 0 <= a_rows a). { rewrite Er. refine (mean_rows _ _ _ HM _ _ _ HJ). intros ? ? ?. discriminate. }
  pose proof (I1 i) as Oi. split.
  - intros HI. rewrite HI in Oi. destruct (ok1_none _ _ _ Oi) as [Ev _]. unfold fresh, get. rewrite Ea, Ev. cbn [obind]. rewrite copy_empty by auto. auto.
  - intros HI N. destruct (A i) as [u|] eqn:Ei; [|congruence]. destruct (ok1_some _ _ _ _ Oi) as (b & Eb & _). unfold get. rewrite Ea, Eb. cbn [obind].
    destruct (Nat.eqb_spec i j); [contradiction|]. rewrite copy_empty by auto. auto.
Qed.

Lemma too_large (s : state T) i r c v : s_var s i = None -> 0 < r < 2 ^ 32 -> 0 < c < 2 ^ 32 -> 2 ^ 32 <= r * c ->
  exists s', step dflt true s (Make i r c v) = Ok s' /\ step dflt true s' (Get i (r - 1) (c - 1)) = UB.
Proof.
  intros H0 Hr Hc Hp. cbn [step]. unfold fresh. rewrite H0. unfold Construct. destruct (Z.leb_spec r 0); [lia|]. destruct (Z.leb_spec c 0); [lia|]. cbn [orb].
  rewrite create_ok by lia. cbn [obind fst snd]. eexists. split; [reflexivity|]. unfold get. cbn [s_var s_heap]. unfold put. rewrite Nat.eqb_refl. cbn [obind a_ptr].
  unfold read2, load_ptr. set (h := s_heap s). set (n := Z.to_nat _).
  rewrite (load_ok _ (length h) (map (fun i => CPtr (S (length h)) (i * c)) (zseq r)) _ _ (CPtr (S (length h)) ((r - 1) * c))); try lia.
  - cbn [obind]. unfold load_val, load, block. rewrite nth_error_app2 by lia. replace (S (length h) - length h)%nat with 1%nat by lia. cbn [nth_error obind].
    assert (Hn : (n < Z.to_nat (2 ^ 32))%nat) by (unfold n; pose proof (Z.mod_pos_bound (r * c) (2 ^ 32)); unfold u32; lia).
    unfold aget. destruct (_ <? 0) eqn:E; auto.
    destruct (nth_error (repeat (CVal v) n) (Z.to_nat ((r - 1) * c + (c - 1)))) eqn:F; auto. apply nth_lt in F. rewrite repeat_length in F.
    assert (2 ^ 32 <= (r - 1) * c + c) by nia. lia.
  - rewrite nth_error_app2, Nat.sub_diag by lia. reflexivity.
  - rewrite nth_error_map, Z.add_0_l, zseq_nth by lia. auto.
Qed.

Lemma no_memory (s : state T) i r c v : s_var s i = None -> 0 < r -> 0 < c -> step dflt false s (Make i r c v) = UB.
Proof.
  intros H0 Hr Hc. cbn [step]. unfold fresh. rewrite H0. unfold Construct. destruct (Z.leb_spec r 0); [lia|]. destruct (Z.leb_spec c 0); [lia|]. cbn [orb].
  unfold create2DArray, alloc. cbn [andb]. destruct (zseq (u32 (r * c))) as [|x l]; [|reflexivity]. cbn [ofold obind].
  destruct (zseq r) as [|x l] eqn:E; [|reflexivity]. apply (f_equal (@length Z)) in E. rewrite zseq_length in E. cbn in E. lia.
Qed.
End P.
