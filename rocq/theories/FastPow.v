(** The table behind the fast power: each entry against 2^((2j+1)/4096). *)
From Coq Require Import ZArith Reals Lra Lia Bool Psatz List.
From Flocq Require Import Core.
From Verif Require Import FastReal FastTable.
Import ListNotations.
Open Scope R_scope.

(** Repeated squaring, on reals and on integers in units of 2^-60 rounded up or
    down. *)
Definition unit : Z := 2 ^ 60.
Fixpoint rsq (n : nat) (x : R) : R := match n with O => x | S k => rsq k (x * x) end.
Fixpoint up (n : nat) (a : Z) : Z := match n with O => a | S k => up k (a * a / unit + 1)%Z end.
Fixpoint down (n : nat) (a : Z) : Z := match n with O => a | S k => down k (a * a / unit)%Z end.

Lemma unit_pos : 0 < IZR unit.
Proof. apply IZR_lt. reflexivity. Qed.
Lemma rsq_inv : forall n x y, 0 <= x -> 0 <= y -> rsq n x <= rsq n y -> x <= y.
Proof.
  induction n as [|n IH]; intros x y Hx Hy H; [exact H|]. cbn in H.
  apply IH in H; [|nra|nra]. nra.
Qed.
Lemma rsq_mono : forall n x y, 0 <= x <= y -> rsq n x <= rsq n y.
Proof. induction n as [|n IH]; intros x y H; cbn [rsq]; [lra|]. apply IH. nra. Qed.
Lemma rsq_exp : forall n x, rsq n (exp x) = exp (IZR (2 ^ Z.of_nat n) * x).
Proof.
  induction n as [|n IH]; intros x; [cbn; f_equal; ring|]. cbn [rsq]. rewrite <- exp_plus, IH. f_equal.
  rewrite Nat2Z.inj_succ, Z.pow_succ_r, mult_IZR by lia. ring.
Qed.
Lemma mul_down : forall a b, IZR (a * b / unit) / IZR unit <= IZR a / IZR unit * (IZR b / IZR unit).
Proof.
  intros a b. assert (Pu := unit_pos). assert (D : (unit * (a * b / unit) <= a * b)%Z) by (apply Z.mul_div_le; reflexivity).
  apply IZR_le in D. rewrite !mult_IZR in D.
  apply Rmult_le_reg_l with (IZR unit * IZR unit); [nra|].
  replace (IZR unit * IZR unit * (IZR (a * b / unit) / IZR unit)) with (IZR unit * IZR (a * b / unit)) by (field; lra).
  replace (IZR unit * IZR unit * (IZR a / IZR unit * (IZR b / IZR unit))) with (IZR a * IZR b) by (field; lra). exact D.
Qed.
Lemma mul_up : forall a b, IZR a / IZR unit * (IZR b / IZR unit) <= IZR (a * b / unit + 1) / IZR unit.
Proof.
  intros a b. assert (Pu := unit_pos). assert (D : (a * b <= unit * (a * b / unit + 1))%Z).
  { assert (X := Z.div_mod (a * b) unit ltac:(discriminate)). assert (Y := Z.mod_pos_bound (a * b) unit ltac:(reflexivity)). lia. }
  apply IZR_le in D. rewrite !mult_IZR in D.
  apply Rmult_le_reg_l with (IZR unit * IZR unit); [nra|].
  replace (IZR unit * IZR unit * (IZR (a * b / unit + 1) / IZR unit)) with (IZR unit * IZR (a * b / unit + 1)) by (field; lra).
  replace (IZR unit * IZR unit * (IZR a / IZR unit * (IZR b / IZR unit))) with (IZR a * IZR b) by (field; lra). exact D.
Qed.
Lemma frac_pos : forall a, (0 <= a)%Z -> 0 <= IZR a / IZR unit.
Proof. intros a Ha. apply Rmult_le_pos; [apply IZR_le; exact Ha|]. left. apply Rinv_0_lt_compat, unit_pos. Qed.
Lemma up_ok : forall n a, (0 <= a)%Z -> rsq n (IZR a / IZR unit) <= IZR (up n a) / IZR unit.
Proof.
  induction n as [|n IH]; intros a Ha; cbn [rsq up]; [lra|]. assert (Q := frac_pos a Ha).
  eapply Rle_trans; [apply rsq_mono; split; [nra|apply mul_up]|]. apply IH.
  assert (0 <= a * a / unit)%Z by (apply Z.div_pos; [nia|reflexivity]). lia.
Qed.
Lemma down_ok : forall n a, (0 <= a)%Z -> IZR (down n a) / IZR unit <= rsq n (IZR a / IZR unit).
Proof.
  induction n as [|n IH]; intros a Ha; cbn [rsq down]; [lra|].
  assert (0 <= a * a / unit)%Z by (apply Z.div_pos; [nia|reflexivity]).
  eapply Rle_trans; [apply IH; assumption|]. apply rsq_mono. split; [now apply frac_pos|apply mul_down].
Qed.

Lemma two_root : forall n, rsq n (exp (/ IZR (2 ^ Z.of_nat n) * ln 2)) = 2.
Proof.
  intros n. rewrite rsq_exp, <- Rmult_assoc, Rinv_r, Rmult_1_l, exp_ln; [reflexivity|lra|].
  apply not_0_IZR. assert (0 < 2 ^ Z.of_nat n)%Z by (apply Z.pow_pos_nonneg; lia). lia.
Qed.
Lemma root_lower : forall n a, (0 <=? a)%Z = true -> (up n a <=? 2 * unit)%Z = true -> IZR a / IZR unit <= exp (/ IZR (2 ^ Z.of_nat n) * ln 2).
Proof.
  intros n a Ha H. apply Z.leb_le in Ha, H. apply rsq_inv with n; [now apply frac_pos|left; apply exp_pos|].
  rewrite two_root. eapply Rle_trans; [now apply up_ok|]. assert (Pu := unit_pos). apply IZR_le in H. rewrite mult_IZR in H.
  apply Rmult_le_reg_r with (IZR unit); [exact Pu|]. unfold Rdiv. rewrite Rmult_assoc, Rinv_l, Rmult_1_r by lra. exact H.
Qed.
Lemma root_upper : forall n a, (0 <=? a)%Z = true -> (2 * unit <=? down n a)%Z = true -> exp (/ IZR (2 ^ Z.of_nat n) * ln 2) <= IZR a / IZR unit.
Proof.
  intros n a Ha H. apply Z.leb_le in Ha, H. apply rsq_inv with n; [left; apply exp_pos|now apply frac_pos|].
  rewrite two_root. eapply Rle_trans; [|now apply down_ok]. assert (Pu := unit_pos). apply IZR_le in H. rewrite mult_IZR in H.
  apply Rmult_le_reg_r with (IZR unit); [exact Pu|]. unfold Rdiv. rewrite Rmult_assoc, Rinv_l, Rmult_1_r by lra. exact H.
Qed.

(** 2^(1/2048) and 2^(1/4096), in units of 2^-60. *)
Definition clo : Z := 1153311777820267002 - 10.
Definition chi : Z := 1153311777820267002 + 10.
Definition glo : Z := 1153116624702523243 - 10.
Definition ghi : Z := 1153116624702523243 + 10.

(** lo and hi enclose the exact power; the entry is within a ten millionth of it. *)
Fixpoint check (l : list Z) (lo hi : Z) : bool :=
  match l with
  | [] => true
  | t :: r => (0 <=? t)%Z && (t <? 2 ^ 23)%Z && (9999999 * hi <=? 10000000 * ((2 ^ 23 + t) * 2 ^ 37))%Z && (10000000 * ((2 ^ 23 + t) * 2 ^ 37) <=? 10000001 * lo)%Z
              && check r (lo * clo / unit)%Z (hi * chi / unit + 1)%Z
  end.

Lemma table_check : check pow_mantissa_table glo ghi = true.
Proof. vm_compute. reflexivity. Qed.

Lemma roots : IZR clo / IZR unit <= exp (ln 2 / 2048) <= IZR chi / IZR unit /\ IZR glo / IZR unit <= exp (ln 2 / 4096) <= IZR ghi / IZR unit.
Proof.
  replace (ln 2 / 2048) with (/ IZR (2 ^ Z.of_nat 11) * ln 2) by (change (2 ^ Z.of_nat 11)%Z with 2048%Z; field).
  replace (ln 2 / 4096) with (/ IZR (2 ^ Z.of_nat 12) * ln 2) by (change (2 ^ Z.of_nat 12)%Z with 4096%Z; field).
  split; split; [apply (root_lower 11 clo)|apply (root_upper 11 chi)|apply (root_lower 12 glo)|apply (root_upper 12 ghi)];
    vm_compute; reflexivity.
Qed.

Lemma ln_near : forall a b, 0 < a -> 9999999 / 10000000 * a <= b <= 10000001 / 10000000 * a -> Rabs (ln b - ln a) <= 2 / 10000000.
Proof.
  intros a b Ha Hb. assert (E : b = a * (b / a)) by (field; lra).
  assert (Q : 9999999 / 10000000 <= b / a <= 10000001 / 10000000).
  { split; apply Rmult_le_reg_r with a; try lra; unfold Rdiv at 2 3; rewrite ?Rmult_assoc, ?Rinv_l by lra; try lra; 
    unfold Rdiv; rewrite ?Rmult_assoc, ?Rinv_l by lra; lra. }
  set (q := b / a) in *. rewrite E, ln_mult by lra. replace (ln a + ln q - ln a) with (ln q) by ring.
  assert (A := exp_ineq1_le (ln q)). rewrite exp_ln in A by lra.
  assert (B := exp_ineq1_le (- ln q)). rewrite exp_Ropp, exp_ln in B by lra.
  assert (I : / q <= 10000002 / 10000000) by (apply Rmult_le_reg_r with q; [lra|]; rewrite Rinv_l by lra; lra).
  apply Rabs_le. lra.
Qed.

Lemma check_ok : forall l lo hi s, check l lo hi = true -> IZR lo / IZR unit <= exp s <= IZR hi / IZR unit ->
  forall j t, nth_error l j = Some t ->
  (0 <= t < 2 ^ 23)%Z /\ Rabs (ln (IZR (2 ^ 23 + t) / IZR (2 ^ 23)) - (s + IZR (Z.of_nat j) * (ln 2 / 2048))) <= 2 / 10000000.
Proof.
  induction l as [|t0 r IH]; intros lo hi s C B j t N; [destruct j; discriminate|].
  cbn [check] in C. rewrite !andb_true_iff in C. destruct C as ((((C0 & C0') & C1) & C2) & C3).
  apply Z.leb_le in C0, C1, C2. apply Z.ltb_lt in C0'.
  assert (Pu : 0 < IZR unit) by (apply IZR_lt; reflexivity).
  destruct j as [|j]; cbn in N.
  - injection N as <-. split; [lia|]. cbn [Z.of_nat]. replace (s + 0 * (ln 2 / 2048)) with (ln (exp s)) by (rewrite ln_exp; ring).
    apply ln_near; [apply exp_pos|].
    assert (E : IZR (2 ^ 23 + t0) / IZR (2 ^ 23) = IZR ((2 ^ 23 + t0) * 2 ^ 37) / IZR unit).
    { rewrite mult_IZR. unfold unit. replace (2 ^ 60)%Z with (2 ^ 23 * 2 ^ 37)%Z by reflexivity. rewrite (mult_IZR (2 ^ 23)). field.
      split; apply not_0_IZR; lia. }
    rewrite E. apply IZR_le in C1, C2. rewrite !mult_IZR in C1, C2. rewrite mult_IZR.
    set (v := IZR (2 ^ 23 + t0) * IZR (2 ^ 37)) in *. clearbody v.
    assert (Iu : 0 < / IZR unit) by now apply Rinv_0_lt_compat.
    unfold Rdiv in B. unfold Rdiv at 2 3. 
    assert (M1 := Rmult_le_compat_r _ _ _ (Rlt_le _ _ Iu) C1). assert (M2 := Rmult_le_compat_r _ _ _ (Rlt_le _ _ Iu) C2). lra.
  - rewrite Nat2Z.inj_succ, succ_IZR.
    replace (s + (IZR (Z.of_nat j) + 1) * (ln 2 / 2048)) with ((s + ln 2 / 2048) + IZR (Z.of_nat j) * (ln 2 / 2048)) by ring.
    apply (IH _ _ _ C3); [|exact N]. destruct roots as ((R1 & R2) & _). rewrite exp_plus.
    assert (P1 := exp_pos s). assert (P2 := exp_pos (ln 2 / 2048)).
    assert (Iu : 0 < / IZR unit) by now apply Rinv_0_lt_compat.
    assert (L0 : (0 <= lo)%Z) by nia.
    split.
    + apply Rle_trans with ((IZR lo / IZR unit) * (IZR clo / IZR unit)).
      * apply mul_down.
      * apply Rmult_le_compat; [| |lra|lra]; apply Rmult_le_pos; try lra; apply IZR_le; [exact L0|unfold clo; lia].
    + apply Rle_trans with ((IZR hi / IZR unit) * (IZR chi / IZR unit)).
      * apply Rmult_le_compat; lra.
      * apply mul_up.
Qed.

Theorem table_ok : forall j t, nth_error pow_mantissa_table j = Some t ->
  (0 <= t < 2 ^ 23)%Z /\ Rabs (ln (IZR (2 ^ 23 + t) / IZR (2 ^ 23)) - (2 * IZR (Z.of_nat j) + 1) / 4096 * ln 2) <= 2 / 10000000.
Proof.
  intros j t N. destruct (check_ok _ _ _ (ln 2 / 4096) table_check (proj2 roots) j t N) as (A & B). split; [exact A|].
  replace ((2 * IZR (Z.of_nat j) + 1) / 4096 * ln 2) with (ln 2 / 4096 + IZR (Z.of_nat j) * (ln 2 / 2048)) by field. exact B.
Qed.
