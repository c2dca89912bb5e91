(** The fast exponential: the quartic against exp, and its evaluation. *)
From Coq Require Import ZArith Reals Lra Lia Bool Psatz List.
From Coquelicot Require Import Rcomplements.
From Flocq Require Import Core BinarySingleNaN.
From Verif Require Import Base FloatModel MongoModel CellModel FastModel FastReal FastRound FastSqrt FastLn.
Import ListNotations.
Open Scope R_scope.

Definition quartic (y : R) : R :=
  1 + - (9998684 / 10000000) * y + 4982926 / 10000000 * y * y + - (1595332 / 10000000) * y * y * y + 293641 / 10000000 * y * y * y * y.

Lemma quartic_pos : forall y, - (1 / 1000) <= y <= 6935 / 10000 -> 49 / 100 <= quartic y <= 1002 / 1000.
Proof.
  intros y Hy. unfold quartic.
  split.
  - by_cover [5100000000000000000; -9998684000000000; 4982926000000; -1595332000; 293641]%Z (15)%Z 16%Z 22%nat (1000 * y).
    match goal with |- ?a <= ?b => enough (0 <= b - a) by lra end.
    match goal with |- 0 <= ?a => match type of H with 0 <= ?b => replace a with (b / 10000000000000000000) by field end end.
    apply Rdiv_le_0_compat; [exact H|lra].
  - by_cover [20000000000000000; 9998684000000000; -4982926000000; 1595332000; -293641]%Z (15)%Z 16%Z 22%nat (1000 * y).
    match goal with |- ?a <= ?b => enough (0 <= b - a) by lra end.
    match goal with |- 0 <= ?a => match type of H with 0 <= ?b => replace a with (b / 10000000000000000000) by field end end.
    apply Rdiv_le_0_compat; [exact H|lra].
Qed.

Lemma quartic_exp_pos : forall y, 0 <= y <= 6935 / 10000 -> Rabs (quartic y * exp y - 1) <= 36 / 10000000.
Proof.
  intros y Hy.
  assert (P := quartic_pos y ltac:(lra)).
  assert (L := exp_lower 10 y ltac:(lra)). assert (U := exp_upper 10 y ltac:(lra)).
  assert (EL : tay 1 10 y = 1 + y + y ^ 2 / 2 + y ^ 3 / 6 + y ^ 4 / 24 + y ^ 5 / 120 + y ^ 6 / 720 + y ^ 7 / 5040 + y ^ 8 / 40320 + y ^ 9 / 362880 + y ^ 10 / 3628800).
  { cbn [tay]. repeat (match goal with |- context [zfact ?n] => let v := eval vm_compute in (zfact n) in change (zfact n) with v end). field. }
  assert (EU : tay 3 10 y = 1 + y + y ^ 2 / 2 + y ^ 3 / 6 + y ^ 4 / 24 + y ^ 5 / 120 + y ^ 6 / 720 + y ^ 7 / 5040 + y ^ 8 / 40320 + y ^ 9 / 362880 + 3 * (y ^ 10 / 3628800)).
  { cbn [tay]. repeat (match goal with |- context [zfact ?n] => let v := eval vm_compute in (zfact n) in change (zfact n) with v end). field. }
  rewrite EL in L. rewrite EU in U. clear EL EU.
  assert (ML := Rmult_le_compat_l (quartic y) _ _ ltac:(lra) L).
  assert (MU := Rmult_le_compat_l (quartic y) _ _ ltac:(lra) U).
  apply Rabs_le. split.
  - enough (- (36 / 10000000) <= quartic y * (1 + y + y ^ 2 / 2 + y ^ 3 / 6 + y ^ 4 / 24 + y ^ 5 / 120 + y ^ 6 / 720 + y ^ 7 / 5040 + y ^ 8 / 40320 + y ^ 9 / 362880 + y ^ 10 / 3628800) - 1) by lra.
    clear - Hy. unfold quartic.
    by_cover [130636800000000000000000000000000000000000000000000; 4775500800000000000000000000000000000000000000000; -57182630400000000000000000000000000000000000000; 199288857600000000000000000000000000000000000; -217759449600000000000000000000000000000000; -24733296000000000000000000000000000000; 69383643840000000000000000000000000; 43870193280000000000000000000000; 14970574080000000000000000000; 3627055720000000000000000; 689788100000000000000; 107672216000000000; 15457296000000; 1341078000; 293641]%Z (8)%Z 8%Z 44%nat (1000 * y).
    match goal with |- ?a <= ?b => enough (0 <= b - a) by lra end.
    match goal with |- 0 <= ?a => match type of H with 0 <= ?b => replace a with (b / 36288000000000000000000000000000000000000000000000000000) by field end end.
    apply Rdiv_le_0_compat; [exact H|lra].
  - enough (quartic y * (1 + y + y ^ 2 / 2 + y ^ 3 / 6 + y ^ 4 / 24 + y ^ 5 / 120 + y ^ 6 / 720 + y ^ 7 / 5040 + y ^ 8 / 40320 + y ^ 9 / 362880 + 3 * (y ^ 10 / 3628800)) - 1 <= 36 / 10000000) by lra.
    clear - Hy. unfold quartic.
    by_cover [130636800000000000000000000000000000000000000000000; -4775500800000000000000000000000000000000000000000; 57182630400000000000000000000000000000000000000; -199288857600000000000000000000000000000000000; 217759449600000000000000000000000000000000; 24733296000000000000000000000000000000; -69383643840000000000000000000000000; -43870193280000000000000000000000; -14970574080000000000000000000; -3627055720000000000000000; -709788100000000000000; -87674848000000000; -25423148000000; 1849586000; -880923]%Z (8)%Z 8%Z 44%nat (1000 * y).
    match goal with |- ?a <= ?b => enough (0 <= b - a) by lra end.
    match goal with |- 0 <= ?a => match type of H with 0 <= ?b => replace a with (b / 36288000000000000000000000000000000000000000000000000000) by field end end.
    apply Rdiv_le_0_compat; [exact H|lra].
Qed.

Lemma quartic_exp : forall y, - (1 / 1000) <= y <= 6935 / 10000 -> Rabs (quartic y * exp y - 1) <= 36 / 10000000.
Proof.
  intros y Hy. destruct (Rle_lt_dec 0 y) as [L|L]; [apply quartic_exp_pos; lra|].
  assert (P := quartic_pos y ltac:(lra)).
  assert (A := exp_ineq1_le y). assert (B := exp_ineq1_le (- y)).
  assert (E : exp y * exp (- y) = 1) by (rewrite <- exp_plus, Rplus_opp_r; apply exp_0).
  assert (Pe := exp_pos y).
  assert (U : exp y <= 1 + y + y * y).
  { apply Rmult_le_reg_r with (exp (- y)); [apply exp_pos|]. rewrite E.
    apply Rle_trans with ((1 + y + y * y) * (1 - y)); [|apply Rmult_le_compat_l; nra]. nra. }
  assert (Q1 : quartic y <= 1 - 9998684 / 10000000 * y + y * y) by (unfold quartic; nra).
  assert (Q2 : 1 - 9998684 / 10000000 * y <= quartic y) by (unfold quartic; nra).
  apply Rabs_le. split.
  - assert ((1 - 9998684 / 10000000 * y) * (1 + y) <= quartic y * exp y) by (apply Rmult_le_compat; lra). nra.
  - assert (quartic y * exp y <= (1 - 9998684 / 10000000 * y + y * y) * (1 + y + y * y)) by (apply Rmult_le_compat; lra). nra.
Qed.
