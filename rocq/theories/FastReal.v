(** Real analysis for the fast approximations: a checker for polynomials on an
    interval, Taylor bounds of exp, series bounds of ln. *)
From Coq Require Import ZArith Reals List Lra Lia Bool Psatz.
From Coquelicot Require Import Coquelicot.
Import ListNotations.
Open Scope R_scope.

(** ** Polynomials with integer coefficients, lowest first *)
Fixpoint pe (p : list Z) (x : R) : R :=
  match p with [] => 0 | a :: r => IZR a + x * pe r x end.

(** [p (x + c)]: [pmulc] is [(x + c) * p + a]. *)
Fixpoint pmulc (c carry : Z) (p : list Z) : list Z :=
  match p with
  | [] => [carry]
  | a :: r => (carry + c * a)%Z :: pmulc c a r
  end.
Fixpoint pshift (c : Z) (p : list Z) : list Z :=
  match p with
  | [] => []
  | a :: r => match pmulc c 0 (pshift c r) with [] => [a] | b :: s => (a + b)%Z :: s end
  end.
Fixpoint pabs (p : list Z) (r : Z) : Z :=
  match p with [] => 0%Z | a :: q => (Z.abs a + r * pabs q r)%Z end.
Definition piece (p : list Z) (c r : Z) : bool :=
  match pshift c p with [] => true | a :: q => (r * pabs q r <=? a)%Z end.
Fixpoint cover (p : list Z) (c r : Z) (n : nat) : bool :=
  match n with O => true | S k => piece p c r && cover p (c + 2 * r) r k end.

Lemma pmulc_ok : forall p c carry x, pe (pmulc c carry p) x = IZR carry + (x + IZR c) * pe p x.
Proof.
  induction p as [|a p IH]; intros; cbn [pmulc pe]; [ring|].
  rewrite IH, plus_IZR, mult_IZR. ring.
Qed.

Lemma pshift_ok : forall p c x, pe (pshift c p) x = pe p (x + IZR c).
Proof.
  induction p as [|a p IH]; intros; cbn [pshift pe]; [reflexivity|].
  assert (H := pmulc_ok (pshift c p) c 0 x). rewrite IH in H.
  destruct (pmulc c 0 (pshift c p)) as [|b s]; cbn [pe] in *.
  - lra.
  - rewrite plus_IZR. lra.
Qed.

Lemma pabs_ok : forall p r x, (0 <= r)%Z -> Rabs x <= IZR r -> Rabs (pe p x) <= IZR (pabs p r).
Proof.
  induction p as [|a p IH]; intros r x Hr Hx; cbn [pabs pe].
  - rewrite Rabs_R0. lra.
  - eapply Rle_trans; [apply Rabs_triang|]. rewrite plus_IZR, mult_IZR, Rabs_mult, abs_IZR.
    apply Rplus_le_compat_l. apply Rmult_le_compat; auto using Rabs_pos.
Qed.

Lemma piece_ok : forall p c r x, (0 <= r)%Z -> piece p c r = true ->
  IZR c - IZR r <= x <= IZR c + IZR r -> 0 <= pe p x.
Proof.
  intros p c r x Hr H Hx. unfold piece in H.
  replace x with ((x - IZR c) + IZR c) by ring. rewrite <- pshift_ok.
  destruct (pshift c p) as [|a q]; cbn [pe]; [lra|].
  apply Z.leb_le in H. apply IZR_le in H. rewrite mult_IZR in H.
  set (y := x - IZR c) in *. assert (Hy : Rabs y <= IZR r) by (apply Rabs_le; unfold y; lra).
  assert (A : Rabs (y * pe q y) <= IZR r * IZR (pabs q r)).
  { rewrite Rabs_mult. apply Rmult_le_compat; auto using Rabs_pos, pabs_ok. }
  apply Rabs_le_between in A. lra.
Qed.

Lemma cover_ok : forall p n c r x, (0 <= r)%Z -> cover p c r n = true ->
  IZR c - IZR r <= x -> x < IZR (c + 2 * r * Z.of_nat n) - IZR r -> 0 <= pe p x.
Proof.
  induction n as [|n IH]; intros c r x Hr H Hl Hu; cbn [cover] in H.
  - replace (c + 2 * r * Z.of_nat 0)%Z with c in Hu by lia. lra.
  - apply andb_true_iff in H. destruct H as [H1 H2].
    destruct (Rle_lt_dec x (IZR c + IZR r)) as [E|E].
    + eapply piece_ok; eauto.
    + apply (IH (c + 2 * r)%Z r x Hr H2).
      * rewrite plus_IZR, mult_IZR. lra.
      * replace (c + 2 * r + 2 * r * Z.of_nat n)%Z with (c + 2 * r * Z.of_nat (S n))%Z by lia. exact Hu.
Qed.

(** ** exp *)
(** The Taylor polynomial [sum x^k / k!], k <= n, with the last coefficient
    multiplied by [c]. *)
Fixpoint zfact (n : nat) : Z := match n with O => 1 | S k => Z.of_nat n * zfact k end%Z.
Lemma zfact_pos : forall n, (0 < zfact n)%Z.
Proof. induction n as [|n IH]; cbn [zfact]; lia. Qed.
Fixpoint tay (c : R) (n : nat) (x : R) : R :=
  match n with
  | O => c
  | S k => tay 1 k x + c * (x ^ n / IZR (zfact n))
  end.

Lemma is_derive_term : forall c d k x, is_derive (fun x => c * (x ^ S k / d)) x (c * (INR (S k) * x ^ k / d)).
Proof.
  intros c d k x.
  assert (E : forall t : R, c / d * t ^ S k = c * (t ^ S k / d)) by (intros; unfold Rdiv; ring).
  apply (is_derive_ext (fun x => (c / d) * x ^ S k)); [exact E|].
  replace (c * (INR (S k) * x ^ k / d)) with ((c / d) * (INR (S k) * 1 * x ^ pred (S k))) by (cbn [pred]; unfold Rdiv; ring).
  apply is_derive_scal. apply (is_derive_pow (fun x => x) (S k) x 1). apply (is_derive_id x).
Qed.

Lemma is_derive_tay : forall n c x, is_derive (tay c (S n)) x (tay c n x).
Proof.
  induction n as [|n IH]; intros c x.
  - cbn [tay]. auto_derive; [exact I|]. cbn. field.
  - change (tay c (S (S n))) with (fun x => tay 1 (S n) x + c * (x ^ S (S n) / IZR (zfact (S (S n))))).
    change (tay c (S n) x) with (tay 1 n x + c * (x ^ S n / IZR (zfact (S n)))).
    apply (is_derive_plus (tay 1 (S n)) _ x); [apply IH|].
    assert (A := is_derive_term c (IZR (zfact (S (S n)))) (S n) x).
    replace (c * (INR (S (S n)) * x ^ S n / IZR (zfact (S (S n))))) with (c * (x ^ S n / IZR (zfact (S n)))) in A; [exact A|].
    replace (IZR (zfact (S (S n)))) with (INR (S (S n)) * IZR (zfact (S n))) by (rewrite INR_IZR_INZ, <- mult_IZR; reflexivity).
    assert (H : INR (S (S n)) <> 0) by (apply not_0_INR; lia).
    assert (H0 : IZR (zfact (S n)) <> 0) by (assert (A0 := zfact_pos (S n)); apply IZR_lt in A0; lra).
    set (u := INR (S (S n))) in *. set (v := IZR (zfact (S n))) in *. field. split; assumption.
Qed.

Lemma tay_0 : forall n c, tay c (S n) 0 = 1.
Proof.
  induction n as [|n IH]; intros c.
  - cbn [tay]. cbn. field.
  - change (tay c (S (S n)) 0) with (tay 1 (S n) 0 + c * (0 ^ S (S n) / IZR (zfact (S (S n))))).
    rewrite IH, pow_i by lia. unfold Rdiv. ring.
Qed.

(** A function with nonnegative derivative on [0, b] that starts at 0. *)
Lemma grows : forall (f f' : R -> R) b, 0 <= b -> (forall x, 0 <= x <= b -> is_derive f x (f' x)) ->
  (forall x, 0 <= x <= b -> 0 <= f' x) -> 0 <= f 0 -> 0 <= f b.
Proof.
  intros f f' b Hb Hd Hp H0.
  destruct (Req_dec b 0) as [->|Hn]; [exact H0|].
  destruct (MVT_gen f 0 b f') as (c & Hc & E).
  - intros x Hx. rewrite Rmin_left, Rmax_right in Hx by lra. apply Hd. lra.
  - intros x Hx. rewrite Rmin_left, Rmax_right in Hx by lra.
    apply continuity_pt_filterlim. apply (ex_derive_continuous f). exists (f' x). apply Hd. lra.
  - rewrite Rmin_left, Rmax_right in Hc by lra. specialize (Hp c Hc). nra.
Qed.

Lemma exp_lower : forall n x, 0 <= x -> tay 1 n x <= exp x.
Proof.
  induction n as [|n IH]; intros x Hx.
  - cbn [tay]. rewrite <- exp_0. destruct Hx as [Hx|Hx]; [left; now apply exp_increasing|right; now rewrite Hx].
  - enough (0 <= exp x - tay 1 (S n) x) by lra.
    apply (grows (fun x => exp x - tay 1 (S n) x) (fun x => exp x - tay 1 n x)); auto.
    + intros y Hy. apply (is_derive_minus exp (tay 1 (S n)) y); [apply is_derive_exp|apply is_derive_tay].
    + intros y Hy. specialize (IH y). lra.
    + rewrite tay_0, exp_0. lra.
Qed.

Lemma exp_upper : forall n x, 0 <= x <= 1 -> exp x <= tay 3 n x.
Proof.
  induction n as [|n IH]; intros x Hx.
  - cbn [tay]. eapply Rle_trans; [|apply exp_le_3]. destruct (proj2 Hx) as [H|H]; [left; now apply exp_increasing|right; now rewrite H].
  - enough (0 <= tay 3 (S n) x - exp x) by lra.
    apply (grows (fun x => tay 3 (S n) x - exp x) (fun x => tay 3 n x - exp x)); try lra.
    + intros y Hy. apply (is_derive_minus (tay 3 (S n)) exp y); [apply is_derive_tay|apply is_derive_exp].
    + intros y Hy. specialize (IH y). lra.
    + rewrite tay_0, exp_0. lra.
Qed.

(** ** ln *)
(** [2 (t + t^3/3 + ... + t^(2n-1)/(2n-1))]. *)
Fixpoint ath (n : nat) (t : R) : R :=
  match n with O => 0 | S k => ath k t + 2 * (t ^ (2 * k + 1) / INR (2 * k + 1)) end.
Fixpoint geo (n : nat) (t : R) : R :=
  match n with O => 0 | S k => geo k t + 2 * t ^ (2 * k) end.

Lemma is_derive_ath : forall n t, is_derive (ath n) t (geo n t).
Proof.
  induction n as [|n IH]; intros t.
  - cbn [ath geo]. auto_derive; auto.
  - change (ath (S n)) with (fun t => ath n t + 2 * (t ^ (2 * n + 1) / INR (2 * n + 1))).
    change (geo (S n) t) with (geo n t + 2 * t ^ (2 * n)).
    apply (is_derive_plus (ath n) _ t); [apply IH|].
    assert (A := is_derive_term 2 (INR (2 * n + 1)) (2 * n) t).
    rewrite Nat.add_1_r in *.
    replace (2 * (INR (S (2 * n)) * t ^ (2 * n) / INR (S (2 * n)))) with (2 * t ^ (2 * n)) in A; [exact A|].
    assert (H : INR (S (2 * n)) <> 0) by (apply not_0_INR; lia).
    set (u := INR (S (2 * n))) in *. field. assumption.
Qed.

Lemma geo_sum : forall n t, (1 - t * t) * geo n t = 2 * (1 - t ^ (2 * n)).
Proof.
  induction n as [|n IH]; intros t.
  - cbn. ring.
  - change (geo (S n) t) with (geo n t + 2 * t ^ (2 * n)). rewrite Rmult_plus_distr_l, IH.
    replace (2 * S n)%nat with (S (S (2 * n))) by lia. rewrite <- !tech_pow_Rmult. ring.
Qed.

Definition lnq (t : R) : R := ln ((1 + t) / (1 - t)).

Lemma is_derive_lnq : forall t, -1 < t < 1 -> is_derive lnq t (2 / (1 - t * t)).
Proof.
  intros t Ht. unfold lnq. auto_derive.
  - split; [lra|]. split; [|exact I]. apply Rdiv_lt_0_compat; lra.
  - field. repeat split; try lra. nra.
Qed.

Lemma ath_0 : forall n, ath n 0 = 0.
Proof.
  induction n as [|n IH]; [reflexivity|].
  change (ath (S n) 0) with (ath n 0 + 2 * (0 ^ (2 * n + 1) / INR (2 * n + 1))).
  rewrite IH, pow_i by lia. unfold Rdiv. ring.
Qed.
Lemma lnq_0 : lnq 0 = 0.
Proof. unfold lnq. replace ((1 + 0) / (1 - 0)) with 1 by field. apply ln_1. Qed.

Lemma ln_lower : forall n t, 0 <= t < 1 -> ath n t <= lnq t.
Proof.
  intros n t Ht. enough (0 <= lnq t - ath n t) by lra.
  apply (grows (fun t => lnq t - ath n t) (fun t => 2 / (1 - t * t) - geo n t)); try lra.
  - intros x Hx. apply (is_derive_minus lnq (ath n) x); [apply is_derive_lnq; lra|apply is_derive_ath].
  - intros x Hx. assert (H := geo_sum n x). assert (0 <= x ^ (2 * n)) by (apply pow_le; lra).
    assert (0 < 1 - x * x) by nra.
    replace (2 / (1 - x * x) - geo n x) with ((2 - (1 - x * x) * geo n x) / (1 - x * x)) by (field; lra).
    rewrite H. apply Rdiv_le_0_compat; lra.
  - rewrite lnq_0, ath_0. lra.
Qed.

(** For t <= 1/3 the rest is at most (9/4) t^(2n+1) / (2n+1). *)
Lemma ln_upper : forall n t, 0 <= t <= 1 / 3 -> lnq t <= ath n t + 9 / 4 * (t ^ (2 * n + 1) / INR (2 * n + 1)).
Proof.
  intros n t Ht.
  set (f := fun t => ath n t + 9 / 4 * (t ^ (2 * n + 1) / INR (2 * n + 1)) - lnq t).
  enough (0 <= f t) by (unfold f in *; lra).
  apply (grows f (fun t => geo n t + 9 / 4 * t ^ (2 * n) - 2 / (1 - t * t))); try lra.
  - intros x Hx. unfold f. apply (is_derive_minus _ lnq x); [|apply is_derive_lnq; lra].
    apply (is_derive_plus (ath n) _ x); [apply is_derive_ath|].
    assert (A := is_derive_term (9 / 4) (INR (2 * n + 1)) (2 * n) x).
    rewrite Nat.add_1_r in *.
    replace (9 / 4 * (INR (S (2 * n)) * x ^ (2 * n) / INR (S (2 * n)))) with (9 / 4 * x ^ (2 * n)) in A; [exact A|].
    assert (H : INR (S (2 * n)) <> 0) by (apply not_0_INR; lia).
    set (u := INR (S (2 * n))) in *. field. assumption.
  - intros x Hx. assert (H := geo_sum n x). assert (0 <= x ^ (2 * n)) by (apply pow_le; lra).
    assert (0 < 1 - x * x) by nra.
    replace (geo n x + 9 / 4 * x ^ (2 * n) - 2 / (1 - x * x))
      with (((1 - x * x) * geo n x + 9 / 4 * (1 - x * x) * x ^ (2 * n) - 2) / (1 - x * x)) by (field; lra).
    rewrite H. apply Rdiv_le_0_compat; [|assumption].
    assert (8 / 9 <= 1 - x * x) by nra.
    assert (2 * x ^ (2 * n) <= 9 / 4 * (1 - x * x) * x ^ (2 * n)) by (apply Rmult_le_compat_r; lra).
    lra.
  - unfold f. rewrite lnq_0, ath_0, pow_i by lia. unfold Rdiv. lra.
Qed.

Lemma lnq_opp : forall t, -1 < t < 1 -> lnq (- t) = - lnq t.
Proof.
  intros t Ht. unfold lnq. rewrite <- ln_Rinv by (apply Rdiv_lt_0_compat; lra). f_equal. field. lra.
Qed.
Lemma ath_opp : forall n t, ath n (- t) = - ath n t.
Proof.
  induction n as [|n IH]; intros t; cbn [ath]; [ring|].
  rewrite IH. replace ((- t) ^ (2 * n + 1)) with (- t ^ (2 * n + 1)); [unfold Rdiv; ring|].
  replace (- t) with (-1 * t) by ring. rewrite Rpow_mult_distr, (pow_add (-1)), pow_1_even. ring.
Qed.

(** ln 2 to ten digits. *)
Lemma ln2_bounds : 6931471805 / 10000000000 <= ln 2 <= 6931471806 / 10000000000.
Proof.
  assert (E : ln 2 = lnq (1 / 3)) by (unfold lnq; f_equal; field).
  rewrite E. split.
  - eapply Rle_trans; [|apply (ln_lower 12); lra]. cbn [ath INR Nat.add Nat.mul]. cbn [pow]. lra.
  - eapply Rle_trans; [apply (ln_upper 12); lra|]. cbn [ath INR Nat.add Nat.mul]. cbn [pow]. lra.
Qed.
