(** The invariant of careful programs (C131). *)
From Coq Require Import List Bool Arith Lia.
From Verif Require Import Base BasicModel HandleModel HandleSpec HandleProofs.
Import ListNotations.

Lemma code_inj a b : code a = code b -> a = b.
Proof. destruct a, b; cbn; intros; try reflexivity; discriminate. Qed.

Lemma is_live_iff l b k : is_live l b k = true <-> In (b, k) l.
Proof.
  induction l as [|[c j] l IH]; cbn [is_live In]; [split; [discriminate|tauto]|].
  rewrite orb_true_iff, andb_true_iff, !Nat.eqb_eq, IH. split.
  - intros [[-> C]|I]; [left; f_equal; symmetry; apply code_inj, C|right; exact I].
  - intros [E|I]; [injection E as -> ->; auto|auto].
Qed.

Lemma drop_in l b x k : NoDup (map fst l) -> (In (x, k) (drop l b) <-> In (x, k) l /\ x <> b).
Proof.
  induction l as [|[c j] l IH]; cbn [drop In map fst]; intros N; [tauto|]. inversion N; subst.
  destruct (Nat.eqb_spec b c) as [->|D].
  - split.
    + intros I. split; [auto|]. intros ->. apply H1. change c with (fst (c, k)). apply in_map. exact I.
    + intros [[E|I] Q]; [injection E as -> ->; congruence|exact I].
  - cbn [In]. rewrite (IH H2). split.
    + intros [E|[I Q]]; [injection E as -> ->; auto|auto].
    + intros [[E|I] Q]; auto.
Qed.

Lemma drop_nodup l b : NoDup (map fst l) -> NoDup (map fst (drop l b)).
Proof.
  induction l as [|[c j] l IH]; cbn [drop map fst]; intros N; [constructor|]. inversion N; subst.
  destruct (Nat.eqb b c); [exact H2|]. cbn [map fst]. constructor; [|auto].
  intros I. apply H1. apply in_map_iff in I. destruct I as ((x & k) & E & I). cbn in E. subst x.
  change c with (fst (c, k)). apply in_map. apply (drop_in l b c k H2) in I. apply I.
Qed.

Lemma at_add w s i : at_ (add w s) i = if i =? length w then Some s else at_ w i.
Proof.
  unfold at_, add. destruct (Nat.eqb_spec i (length w)) as [->|D].
  - rewrite nth_error_app2, Nat.sub_diag by lia. reflexivity.
  - destruct (Nat.lt_ge_cases i (length w)).
    + rewrite nth_error_app1 by lia. reflexivity.
    + rewrite (proj2 (nth_error_None (w ++ [Some s]) i)) by (rewrite app_length; cbn; lia).
      rewrite (proj2 (nth_error_None w i)) by lia. reflexivity.
Qed.

Lemma nth_upd_none (w : world) i j : nth_error (upd w j None) i = if (i =? j) && (i <? length w) then Some None else nth_error w i.
Proof.
  revert i j. induction w as [|a w IH]; intros i j; cbn [upd].
  - replace (i <? length (@nil (option slot))) with false by (symmetry; apply Nat.ltb_ge; cbn; lia). rewrite andb_false_r. reflexivity.
  - destruct j as [|j].
    + destruct i; reflexivity.
    + destruct i as [|i]; [reflexivity|]. cbn [nth_error]. rewrite IH. reflexivity.
Qed.

Lemma at_clear w i j : at_ (clear w j) i = if i =? j then None else at_ w i.
Proof.
  unfold at_, clear. rewrite nth_upd_none. destruct (Nat.eqb_spec i j) as [->|D]; cbn [andb]; [|reflexivity].
  destruct (Nat.ltb_spec j (length w)); [reflexivity|]. rewrite (proj2 (nth_error_None w j)) by lia. reflexivity.
Qed.

Lemma length_clear w j : length (clear w j) = length w.
Proof. unfold clear. revert j. induction w as [|a w IH]; intros [|j]; cbn [upd length]; auto. Qed.

Lemma at_length w i s : at_ w i = Some s -> i < length w.
Proof. unfold at_. destruct (nth_error w i) eqn:E; [|discriminate]. intros _. apply nth_error_Some. congruence. Qed.

(** [t]: nothing was left behind so far; [gs]: objects that were. *)
Record Inv (t : bool) (gs : list (nat * kind)) (w : world) (d : driver) : Prop := mkInv {
  i_fresh : forall x k, In (x, k) (d_live d) -> x < d_next d;
  i_nodup : NoDup (map fst (d_live d));
  i_slot : forall i s k b, at_ w i = Some s -> holds s = (k, Some b) ->
           In (b, k) (d_live d) \/ d_phase d = After /\ k = KClient /\ b < d_next d;
  i_uniq : forall i j s s' k k' b, at_ w i = Some s -> at_ w j = Some s' -> holds s = (k, Some b) -> holds s' = (k', Some b) -> i = j;
  i_null : forall i s k, at_ w i = Some s -> holds s = (k, None) -> k <> KClient /\ k <> KDatabase;
  i_tidy : t = true -> forall b k, In (b, k) (d_live d) -> held w b k;
  i_ghost : forall b k, In (b, k) gs -> In (b, k) (d_live d) /\ forall i s k', at_ w i = Some s -> holds s <> (k', Some b)
}.

Lemma slot_bound t gs w d i s k b : Inv t gs w d -> at_ w i = Some s -> holds s = (k, Some b) -> b < d_next d.
Proof. intros I A H. destruct (i_slot _ _ _ _ I i s k b A H) as [L|(_ & _ & L)]; [apply (i_fresh _ _ _ _ I b k L)|exact L]. Qed.

Section Moves.
Variables (t : bool) (gs : list (nat * kind)) (w : world) (n n' : nat) (l : list (nat * kind)) (ph ph' : phase).
Hypothesis I : Inv t gs w (mkDriver n l ph).

Lemma m_same : n <= n' -> (ph = After -> ph' = After) -> Inv t gs w (mkDriver n' l ph').
Proof using I.
  intros L P. destruct I as [F N S U Z T G]. constructor; cbn [d_live d_next d_phase] in *; auto.
  - intros x k X. specialize (F x k X). lia.
  - intros i s k b A H. destruct (S i s k b A H) as [X|(X & Y & W)]; [auto|right]. split; [auto|]. split; [exact Y|lia].
Qed.

Lemma m_add s k b : n <= b < n' -> (ph = After -> ph' = After) -> holds s = (k, Some b) -> Inv t gs (add w s) (mkDriver n' ((b, k) :: l) ph').
Proof using I.
  intros L P H. pose proof I as I0. destruct I0 as [F N S U Z T G]. constructor; cbn [d_live d_next d_phase map fst In] in *.
  - intros x j [E|X]; [injection E as -> ->; lia|specialize (F x j X); lia].
  - constructor; [|exact N]. intros X. apply in_map_iff in X. destruct X as ((x & j) & E & X). cbn in E. subst x. specialize (F b j X). lia.
  - intros i s0 k0 b0 A H0. rewrite at_add in A. destruct (i =? length w).
    + injection A as <-. rewrite H in H0. injection H0 as -> ->. auto.
    + destruct (S i s0 k0 b0 A H0) as [X|(X & Y & W)]; [auto|right]. split; [auto|]. split; [exact Y|lia].
  - intros i j s1 s2 k1 k2 b0 A B H1 H2. rewrite at_add in A, B.
    destruct (Nat.eqb_spec i (length w)) as [->|D]; destruct (Nat.eqb_spec j (length w)) as [->|D']; auto.
    + injection A as <-. rewrite H in H1. injection H1 as -> ->. pose proof (slot_bound _ _ _ _ j s2 k2 b0 I B H2). cbn in H0. lia.
    + injection B as <-. rewrite H in H2. injection H2 as -> ->. pose proof (slot_bound _ _ _ _ i s1 k1 b0 I A H1). cbn in H0. lia.
    + apply (U i j s1 s2 k1 k2 b0 A B H1 H2).
  - intros i s0 k0 A H0. rewrite at_add in A. destruct (i =? length w); [injection A as <-; congruence|]. apply (Z i s0 k0 A H0).
  - intros E b0 k0 [X|X].
    + injection X as <- <-. exists (length w), s. rewrite at_add, Nat.eqb_refl. auto.
    + destruct (T E b0 k0 X) as (i & s0 & A & H0). exists i, s0. rewrite at_add. split; [|exact H0].
      destruct (Nat.eqb_spec i (length w)); [|exact A]. apply at_length in A. lia.
  - intros x j X. destruct (G x j X) as [Y W]. split; [auto|]. intros i s0 k' A. rewrite at_add in A. destruct (i =? length w).
    + injection A as <-. rewrite H. intros E. injection E as -> ->. specialize (F x j Y). lia.
    + apply (W i s0 k' A).
Qed.

Lemma m_null s k : holds s = (k, None) -> k <> KClient -> k <> KDatabase -> Inv t gs (add w s) (mkDriver n l ph).
Proof using I.
  intros H C D. destruct I as [F N S U Z T G]. constructor; cbn [d_live d_next d_phase map fst In] in *; auto.
  - intros i s0 k0 b0 A H0. rewrite at_add in A. destruct (i =? length w); [injection A as <-; congruence|]. apply (S i s0 k0 b0 A H0).
  - intros i j s1 s2 k1 k2 b0 A B H1 H2. rewrite at_add in A, B.
    destruct (i =? length w); [injection A as <-; congruence|]. destruct (j =? length w); [injection B as <-; congruence|].
    apply (U i j s1 s2 k1 k2 b0 A B H1 H2).
  - intros i s0 k0 A H0. rewrite at_add in A. destruct (i =? length w); [injection A as <-; split; congruence|]. apply (Z i s0 k0 A H0).
  - intros E b0 k0 X. destruct (T E b0 k0 X) as (i & s0 & A & H0). exists i, s0. rewrite at_add. split; [|exact H0].
    destruct (Nat.eqb_spec i (length w)); [|exact A]. apply at_length in A. lia.
  - intros x j X. destruct (G x j X) as [Y W]. split; [auto|]. intros i s0 k' A. rewrite at_add in A. destruct (i =? length w).
    + injection A as <-. congruence.
    + apply (W i s0 k' A).
Qed.

Lemma m_leak k b : t = false -> n <= b < n' -> Inv t gs w (mkDriver n' ((b, k) :: l) ph).
Proof using I.
  intros E L. subst t. destruct I as [F N S U Z T G]. constructor; cbn [d_live d_next d_phase map fst In] in *; auto; try discriminate.
  - intros x j [Y|X]; [injection Y as -> ->; lia|specialize (F x j X); lia].
  - constructor; [|exact N]. intros X. apply in_map_iff in X. destruct X as ((x & j) & E & X). cbn in E. subst x. specialize (F b j X). lia.
  - intros i s0 k0 b0 A H0. destruct (S i s0 k0 b0 A H0) as [X|(X & Y & W)]; [auto|right]. split; [auto|]. split; [exact Y|lia].
  - intros x j X. destruct (G x j X) as [Y W]. auto.
Qed.

Lemma m_clear i s : at_ w i = Some s -> (t = true -> forall b, snd (holds s) = Some b -> ~ In (b, fst (holds s)) l) -> Inv t gs (clear w i) (mkDriver n l ph).
Proof using I.
  intros A0 Q. destruct I as [F N S U Z T G]. constructor; cbn [d_live d_next d_phase map fst In] in *; auto.
  - intros i0 s0 k0 b0 A H0. rewrite at_clear in A. destruct (i0 =? i); [discriminate|]. apply (S i0 s0 k0 b0 A H0).
  - intros i0 j s1 s2 k1 k2 b0 A B H1 H2. rewrite at_clear in A, B. destruct (i0 =? i); [discriminate|]. destruct (j =? i); [discriminate|].
    apply (U i0 j s1 s2 k1 k2 b0 A B H1 H2).
  - intros i0 s0 k0 A H0. rewrite at_clear in A. destruct (i0 =? i); [discriminate|]. apply (Z i0 s0 k0 A H0).
  - intros E b0 k0 X. destruct (T E b0 k0 X) as (i0 & s0 & A & H0). exists i0, s0. rewrite at_clear. split; [|exact H0].
    destruct (Nat.eqb_spec i0 i) as [->|D]; [|exact A]. exfalso. rewrite A in A0. injection A0 as ->. rewrite H0 in Q. apply (Q E b0 eq_refl X).
  - intros x j X. destruct (G x j X) as [Y W]. split; [auto|]. intros i0 s0 k' A. rewrite at_clear in A. destruct (i0 =? i); [discriminate|]. apply (W i0 s0 k' A).
Qed.

Lemma m_kill i s k b : at_ w i = Some s -> holds s = (k, Some b) -> Inv t gs (clear w i) (mkDriver n (drop l b) ph).
Proof using I.
  intros A0 H. destruct I as [F N S U Z T G]. constructor; cbn [d_live d_next d_phase map fst In] in *; auto.
  - intros x j X. apply (drop_in l b x j N) in X. apply (F x j), X.
  - apply drop_nodup, N.
  - intros i0 s0 k0 b0 A H0. rewrite at_clear in A. destruct (Nat.eqb_spec i0 i) as [->|D]; [discriminate|].
    destruct (S i0 s0 k0 b0 A H0) as [X|X]; [left|right; exact X]. apply (drop_in l b b0 k0 N). split; [exact X|].
    intros ->. apply D, (U i0 i s0 s k0 k b A A0 H0 H).
  - intros i0 j s1 s2 k1 k2 b0 A B H1 H2. rewrite at_clear in A, B. destruct (i0 =? i); [discriminate|]. destruct (j =? i); [discriminate|].
    apply (U i0 j s1 s2 k1 k2 b0 A B H1 H2).
  - intros i0 s0 k0 A H0. rewrite at_clear in A. destruct (i0 =? i); [discriminate|]. apply (Z i0 s0 k0 A H0).
  - intros E b0 k0 X. apply (drop_in l b b0 k0 N) in X. destruct X as [X Q]. destruct (T E b0 k0 X) as (i0 & s0 & A & H0).
    exists i0, s0. rewrite at_clear. split; [|exact H0]. destruct (Nat.eqb_spec i0 i) as [->|D]; [|exact A].
    exfalso. rewrite A in A0. injection A0 as ->. rewrite H0 in H. congruence.
  - intros x j X. destruct (G x j X) as [Y W]. split.
    + apply (drop_in l b x j N). split; [exact Y|]. intros ->. apply (W i s k A0 H).
    + intros i0 s0 k' A. rewrite at_clear in A. destruct (i0 =? i); [discriminate|]. apply (W i0 s0 k' A).
Qed.

Lemma m_move j s s' : at_ w j = Some s -> holds s' = holds s -> Inv t gs (add (clear w j) s') (mkDriver n l ph).
Proof using I.
  intros A0 H. destruct I as [F N S U Z T G].
  assert (K : forall i x, at_ (add (clear w j) s') i = Some x -> exists i0 x0, at_ w i0 = Some x0 /\ holds x0 = holds x /\
            (i = length w /\ i0 = j \/ i <> length w /\ i = i0 /\ i0 <> j)).
  { intros i x A. rewrite at_add, length_clear in A. destruct (Nat.eqb_spec i (length w)) as [->|D].
    - injection A as <-. exists j, s. rewrite H. auto 6.
    - rewrite at_clear in A. destruct (Nat.eqb_spec i j) as [->|D']; [discriminate|]. exists i, x. auto 8. }
  constructor; cbn [d_live d_next d_phase map fst In] in *; auto.
  - intros i x k b A X. destruct (K i x A) as (i0 & x0 & A' & X' & _). rewrite <- X' in X. apply (S i0 x0 k b A' X).
  - intros i i' x y k k' b A B X Y. destruct (K i x A) as (i0 & x0 & A' & X' & D). destruct (K i' y B) as (i1 & y0 & B' & Y' & D').
    rewrite <- X' in X. rewrite <- Y' in Y. pose proof (U i0 i1 x0 y0 k k' b A' B' X Y). intuition congruence.
  - intros i x k A X. destruct (K i x A) as (i0 & x0 & A' & X' & _). rewrite <- X' in X. apply (Z i0 x0 k A' X).
  - intros E b k X. destruct (T E b k X) as (i & x & A & Y). destruct (Nat.eq_dec i j) as [->|D].
    + exists (length w), s'. rewrite at_add, length_clear, Nat.eqb_refl. split; [reflexivity|]. congruence.
    + exists i, x. rewrite at_add, length_clear, at_clear. split; [|exact Y].
      destruct (Nat.eqb_spec i (length w)) as [->|]; [apply at_length in A; lia|]. destruct (Nat.eqb_spec i j); [congruence|exact A].
  - intros x u X. destruct (G x u X) as [Y W]. split; [auto|]. intros i s0 k' A E. destruct (K i s0 A) as (i0 & x0 & A' & X' & _).
    rewrite <- X' in E. apply (W i0 x0 k' A' E).
Qed.

Lemma m_destroy i b : at_ w i = Some (SClient (Some b)) -> In (b, KClient) l -> Inv t gs w (mkDriver n (drop l b) After).
Proof using I.
  intros A0 L. pose proof (i_fresh _ _ _ _ I) as F0. destruct I as [F N S U Z T G]. constructor; cbn [d_live d_next d_phase map fst In] in *; auto.
  - intros x j X. apply (drop_in l b x j N) in X. apply (F x j), X.
  - apply drop_nodup, N.
  - intros i0 s0 k0 b0 A H0. destruct (Nat.eq_dec b0 b) as [->|D].
    + assert (i0 = i) as -> by (apply (U i0 i s0 (SClient (Some b)) k0 KClient b A A0 H0 eq_refl)).
      rewrite A in A0. injection A0 as ->. cbn in H0. injection H0 as <-. right. split; [reflexivity|]. split; [reflexivity|]. apply (F b KClient L).
    + destruct (S i0 s0 k0 b0 A H0) as [X|(X & Y & W)]; [left; apply (drop_in l b b0 k0 N); auto|right; auto].
  - intros E b0 k0 X. apply (drop_in l b b0 k0 N) in X. destruct X as [X Q]. apply (T E b0 k0 X).
  - intros x j X. destruct (G x j X) as [Y W]. split; [|exact W]. apply (drop_in l b x j N). split; [exact Y|]. intros ->.
    apply (W i _ KClient A0 eq_refl).
Qed.

(** Something new is left behind. *)
Lemma m_ghost k b : n <= b < n' -> Inv false ((b, k) :: gs) w (mkDriver n' ((b, k) :: l) ph).
Proof using I.
  intros L. assert (I1 : Inv false gs w (mkDriver n l ph)) by (destruct I; constructor; auto; discriminate).
  assert (I2 : Inv false gs w (mkDriver n' ((b, k) :: l) ph)).
  { pose proof I1 as I0. destruct I1 as [F N S U Z T G]. constructor; cbn [d_live d_next d_phase map fst In] in *; auto; try discriminate.
    - intros x j [Y|X]; [injection Y as -> ->; lia|specialize (F x j X); lia].
    - constructor; [|exact N]. intros X. apply in_map_iff in X. destruct X as ((x & j) & E & X). cbn in E. subst x. specialize (F b j X). lia.
    - intros i s0 k0 b0 A H0. destruct (S i s0 k0 b0 A H0) as [X|(X & Y & W)]; [auto|right]. split; [auto|]. split; [exact Y|lia].
    - intros x j X. destruct (G x j X) as [Y W]. auto. }
  destruct I2 as [F N S U Z T G]. constructor; auto. cbn [In d_live] in *. intros x j [X|X]; [|auto]. injection X as <- <-.
  split; [auto|]. intros i s k' A E. pose proof (slot_bound _ _ _ _ i s k' b I A E). cbn in H. lia.
Qed.

Lemma m_abandon i s k b : at_ w i = Some s -> holds s = (k, Some b) -> In (b, k) l -> Inv false ((b, k) :: gs) (clear w i) (mkDriver n l ph).
Proof using I.
  intros A0 H L. assert (I1 : Inv false gs w (mkDriver n l ph)) by (destruct I; constructor; auto; discriminate).
  pose proof I as I0. destruct I1 as [F N S U Z T G]. constructor; cbn [d_live d_next d_phase map fst In] in *; auto; try discriminate.
  - intros i0 s0 k0 b0 A H0. rewrite at_clear in A. destruct (i0 =? i); [discriminate|]. apply (S i0 s0 k0 b0 A H0).
  - intros i0 j s1 s2 k1 k2 b0 A B H1 H2. rewrite at_clear in A, B. destruct (i0 =? i); [discriminate|]. destruct (j =? i); [discriminate|].
    apply (U i0 j s1 s2 k1 k2 b0 A B H1 H2).
  - intros i0 s0 k0 A H0. rewrite at_clear in A. destruct (i0 =? i); [discriminate|]. apply (Z i0 s0 k0 A H0).
  - intros x j [X|X].
    + injection X as <- <-. split; [exact L|]. intros i0 s0 k' A E. rewrite at_clear in A. destruct (Nat.eqb_spec i0 i) as [->|D]; [discriminate|].
      apply D, (U i0 i s0 s k' k b A A0 E H).
    + destruct (G x j X) as [Y W]. split; [auto|]. intros i0 s0 k' A. rewrite at_clear in A. destruct (i0 =? i); [discriminate|]. apply (W i0 s0 k' A).
Qed.
End Moves.
