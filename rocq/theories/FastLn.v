(** The fast logarithm. *)
From Coq Require Import ZArith Reals Lra Lia Bool Psatz List.
From Coquelicot Require Import Rcomplements.
From Flocq Require Import Core BinarySingleNaN.
From Verif Require Import Base FloatModel MongoModel CellModel FastModel FastReal FastRound FastBits FastSqrt.
Import ListNotations.
Open Scope R_scope.

(** ** The cubic against ln on [1, 2] *)
Definition cubic (c0 f : R) : R :=
  ((15824870 / 100000000 * f - 105187502 / 100000000) * f + 304788415 / 100000000) * f - c0.

Lemma cubic64 : forall t, - (1 / 5) <= t <= 1 / 7 ->
  Rabs ((cubic (115362071 / 100000000) (3 / 2 * ((1 + t) / (1 - t))) - 1) * (69314718 / 100000000) - 40546511 / 100000000 - ath 4 t) <= 450 / 1000000.
Proof.
  intros t Ht.
  assert (P : 0 < (1 - t) ^ 3) by (apply pow_lt; lra).
  assert (A4 : ath 4 t = 2 * t + 2 / 3 * t ^ 3 + 2 / 5 * t ^ 5 + 2 / 7 * t ^ 7) by (cbn [ath INR Nat.add Nat.mul]; cbn [pow]; field).
  rewrite A4. apply Rabs_le. unfold cubic.
  split; apply Rmult_le_reg_r with ((1 - t) ^ 3); try exact P.
  - by_cover [183813054667693500000000000000000000000; -114483845345770950000000000000000000; -233583180652967355000000000000000; 86259603078672971500000000000; 84000000000000000000000000; -5040000000000000000000; 392000000000000000; -31200000000000; 2640000000; -180000; 6]%Z (-1984)%Z 16%Z 108%nat (10000 * t).
    match goal with |- ?a <= ?b => enough (0 <= b - a) by lra end.
    match goal with |- 0 <= ?a => match type of H with 0 <= ?b => replace a with (b / 210000000000000000000000000000000000000000) by (field; lra) end end.
    apply Rdiv_le_0_compat; [exact H|lra].
  - by_cover [5186945332306500000000000000000000000; 57783845345770950000000000000000000; 239253180652967355000000000000000; -86448603078672971500000000000; -84000000000000000000000000; 5040000000000000000000; -392000000000000000; 31200000000000; -2640000000; 180000; -6]%Z (-1999)%Z 1%Z 1715%nat (10000 * t).
    match goal with |- ?a <= ?b => enough (0 <= b - a) by lra end.
    match goal with |- 0 <= ?a => match type of H with 0 <= ?b => replace a with (b / 210000000000000000000000000000000000000000) by (field; lra) end end.
    apply Rdiv_le_0_compat; [exact H|lra].
Qed.

Lemma cubic32 : forall t, - (1 / 5) <= t <= 1 / 7 ->
  Rabs ((cubic (115360271 / 100000000) (3 / 2 * ((1 + t) / (1 - t))) - 1) * (69314718 / 100000000) - 40546511 / 100000000 - ath 4 t) <= 465 / 1000000.
Proof.
  intros t Ht.
  assert (P : 0 < (1 - t) ^ 3) by (apply pow_lt; lra).
  assert (A4 : ath 4 t = 2 * t + 2 / 3 * t ^ 3 + 2 / 5 * t ^ 5 + 2 / 7 * t ^ 7) by (cbn [ath INR Nat.add Nat.mul]; cbn [pow]; field).
  rewrite A4. apply Rabs_le. unfold cubic.
  split; apply Rmult_le_reg_r with ((1 - t) ^ 3); try exact P.
  - by_cover [189583151008093500000000000000000000000; -116214874247890950000000000000000000; -233410077762755355000000000000000; 86253832982332571500000000000; 84000000000000000000000000; -5040000000000000000000; 392000000000000000; -31200000000000; 2640000000; -180000; 6]%Z (-1984)%Z 16%Z 108%nat (10000 * t).
    match goal with |- ?a <= ?b => enough (0 <= b - a) by lra end.
    match goal with |- 0 <= ?a => match type of H with 0 <= ?b => replace a with (b / 210000000000000000000000000000000000000000) by (field; lra) end end.
    apply Rdiv_le_0_compat; [exact H|lra].
  - by_cover [5716848991906500000000000000000000000; 57624874247890950000000000000000000; 239269077762755355000000000000000; -86449132982332571500000000000; -84000000000000000000000000; 5040000000000000000000; -392000000000000000; 31200000000000; -2640000000; 180000; -6]%Z (-1999)%Z 1%Z 1715%nat (10000 * t).
    match goal with |- ?a <= ?b => enough (0 <= b - a) by lra end.
    match goal with |- 0 <= ?a => match type of H with 0 <= ?b => replace a with (b / 210000000000000000000000000000000000000000) by (field; lra) end end.
    apply Rdiv_le_0_compat; [exact H|lra].
Qed.

Lemma ln_32 : 40546510 / 100000000 <= ln (3 / 2) <= 40546511 / 100000000.
Proof.
  assert (E : ln (3 / 2) = lnq (1 / 5)) by (unfold lnq; f_equal; field).
  rewrite E. split.
  - eapply Rle_trans; [|apply (ln_lower 8); lra]. cbn [ath INR Nat.add Nat.mul]. cbn [pow]. lra.
  - eapply Rle_trans; [apply (ln_upper 8); lra|]. cbn [ath INR Nat.add Nat.mul]. cbn [pow]. lra.
Qed.

Lemma lnq_ath : forall t, - (1 / 5) <= t <= 1 / 7 -> Rabs (lnq t - ath 4 t) <= 2 / 10000000.
Proof.
  assert (S : forall t, 0 <= t <= 1 / 5 -> 0 <= lnq t - ath 4 t <= 2 / 10000000).
  { intros t Ht. assert (A := ln_lower 4 t ltac:(lra)). assert (B := ln_upper 4 t ltac:(lra)).
    assert (C : t ^ 9 <= (1 / 5) ^ 9) by (apply pow_incr; lra). cbn [Nat.mul Nat.add INR] in B. lra. }
  intros t Ht. apply Rabs_le. destruct (Rle_lt_dec 0 t) as [L|L].
  - specialize (S t ltac:(lra)). lra.
  - specialize (S (- t) ltac:(lra)). rewrite lnq_opp, ath_opp in S by lra. lra.
Qed.

Lemma cubic_bound : forall c0 f, 115 / 100 <= c0 <= 116 / 100 -> 1 <= f <= 2 -> -2 <= cubic c0 f - 1 <= 5.
Proof.
  intros c0 f Hc Hf. unfold cubic.
  assert (A : -1 <= 15824870 / 100000000 * f - 105187502 / 100000000 <= 0) by lra.
  set (a := 15824870 / 100000000 * f - 105187502 / 100000000) in *.
  assert (B : -2 <= a * f <= 0) by nra.
  set (b := a * f) in *. assert (1 <= (b + 304788415 / 100000000) * f <= 61 / 10) by nra. lra.
Qed.

Lemma cubic_ln : forall c0 B, 115 / 100 <= c0 <= 116 / 100 ->
  (forall t, - (1 / 5) <= t <= 1 / 7 ->
    Rabs ((cubic c0 (3 / 2 * ((1 + t) / (1 - t))) - 1) * (69314718 / 100000000) - 40546511 / 100000000 - ath 4 t) <= B) ->
  forall f, 1 <= f <= 2 -> Rabs ((cubic c0 f - 1) * ln 2 - ln f) <= B + 3 / 10000000.
Proof.
  intros c0 B Hc H f Hf.
  set (t := (2 * f - 3) / (2 * f + 3)).
  assert (Ht : - (1 / 5) <= t <= 1 / 7).
  { unfold t. split.
    - apply Rmult_le_reg_r with (2 * f + 3); [lra|]. unfold Rdiv at 2. rewrite Rmult_assoc, Rinv_l by lra. lra.
    - apply Rmult_le_reg_r with (2 * f + 3); [lra|]. unfold Rdiv at 1. rewrite Rmult_assoc, Rinv_l by lra. lra. }
  assert (Ef : f = 3 / 2 * ((1 + t) / (1 - t))) by (unfold t; field; lra).
  specialize (H t Ht). rewrite <- Ef in H.
  assert (El : ln f = ln (3 / 2) + lnq t).
  { rewrite Ef at 1. rewrite ln_mult; [reflexivity|lra|]. apply Rdiv_lt_0_compat; lra. }
  rewrite El. assert (Q := lnq_ath t Ht). assert (L3 := ln_32). assert (L2 := ln2_bounds).
  assert (Bc := cubic_bound c0 f Hc Hf).
  set (p := cubic c0 f - 1) in *.
  assert (Rabs (p * (ln 2 - 69314718 / 100000000)) <= 5 * (1 / 100000000)).
  { rewrite Rabs_mult. apply Rmult_le_compat; try apply Rabs_pos; apply Rabs_le; lra. }
  apply Rabs_le. apply Rabs_le_inv in H, Q, H0. lra.
Qed.

(** ** Rounding errors of the evaluation *)
Section Horner.
Variables prec emax : Z.
Variable Hp : FLX.Prec_gt_0 prec.
Variable He : Prec_lt_emax prec emax.
Notation flo := (binary_float prec emax).
Notation u := (ulp1 prec).
Notation most := (most emax).
Notation mul := (mul prec emax Hp He).
Notation sub := (sub prec emax Hp He).
Notation add := (add prec emax Hp He).
Variable Hu : u <= 1 / 1000000.
Variable Hleast : least emax <= 1.

Lemma mul_w : forall (a b : flo) B, is_finite a = true -> is_finite b = true -> Rabs (B2R a * B2R b) <= B -> B <= most ->
  Rabs (B2R (mul a b) - B2R a * B2R b) <= (B + 1) * u /\ is_finite (mul a b) = true.
Proof using Hleast.
  intros a b B Fa Fb H HB. destruct (mul_abs prec emax Hp He a b Fa Fb ltac:(lra)) as (A & F).
  split; [|exact F]. assert (Pu := ulp1_pos prec).
  assert (u * Rabs (B2R a * B2R b) <= u * B) by (apply Rmult_le_compat_l; lra).
  assert (u * least emax <= u * 1) by (apply Rmult_le_compat_l; lra). lra.
Qed.
Lemma add_w : forall (a b : flo) B, is_finite a = true -> is_finite b = true -> Rabs (B2R a + B2R b) <= B -> B <= most ->
  Rabs (B2R (add a b) - (B2R a + B2R b)) <= B * u /\ is_finite (add a b) = true.
Proof.
  intros a b B Fa Fb H HB. destruct (add_rel prec emax Hp He a b Fa Fb ltac:(lra)) as (d & D & V & F).
  split; [|exact F]. rewrite V. replace ((B2R a + B2R b) * (1 + d) - (B2R a + B2R b)) with ((B2R a + B2R b) * d) by ring.
  rewrite Rabs_mult. apply Rmult_le_compat; auto using Rabs_pos.
Qed.
Lemma sub_w : forall (a b : flo) B, is_finite a = true -> is_finite b = true -> Rabs (B2R a - B2R b) <= B -> B <= most ->
  Rabs (B2R (sub a b) - (B2R a - B2R b)) <= B * u /\ is_finite (sub a b) = true.
Proof.
  intros a b B Fa Fb H HB. destruct (sub_rel prec emax Hp He a b Fa Fb ltac:(lra)) as (d & D & V & F).
  split; [|exact F]. rewrite V. replace ((B2R a - B2R b) * (1 + d) - (B2R a - B2R b)) with ((B2R a - B2R b) * d) by ring.
  rewrite Rabs_mult. apply Rmult_le_compat; auto using Rabs_pos.
Qed.

Lemma times : forall e f a, 0 <= f <= 2 -> Rabs e <= a -> Rabs (e * f) <= 2 * a.
Proof.
  intros e f a Hf Ha. rewrite Rabs_mult, (Rabs_pos_eq f) by lra. assert (P := Rabs_pos e). nra.
Qed.

Variables k3 k2 k1 k0 : flo.
Variable c0 : R.
Hypothesis Hmost : 8 <= most.
Hypothesis Hc0 : 115 / 100 <= c0 <= 116 / 100.
Hypothesis Fk : is_finite k3 = true /\ is_finite k2 = true /\ is_finite k1 = true /\ is_finite k0 = true.
Hypothesis D3 : Rabs (B2R k3 - 15824870 / 100000000) <= 2 / 10000000.
Hypothesis D2 : Rabs (B2R k2 - 105187502 / 100000000) <= 2 / 10000000.
Hypothesis D1 : Rabs (B2R k1 - 304788415 / 100000000) <= 2 / 10000000.
Hypothesis D0 : Rabs (B2R k0 - c0) <= 2 / 10000000.

Definition horner (f : flo) : flo := sub (mul (add (mul (sub (mul k3 f) k2) f) k1) f) k0.

Lemma horner_ok : forall f : flo, is_finite f = true -> 1 <= B2R f <= 2 ->
  Rabs (B2R (horner f) - cubic c0 (B2R f)) <= 36 * u + 3 / 1000000 /\ is_finite (horner f) = true.
Proof using Hu Hleast Hmost Hc0 Fk D3 D2 D1 D0.
  intros f Ff Hf. destruct Fk as (F3 & F2 & F1 & F0). unfold horner.
  assert (Pu := ulp1_pos prec). assert (D3' := D3). assert (D2' := D2). assert (D1' := D1). assert (D0' := D0).
  apply Rabs_le_inv in D3', D2', D1', D0'.
  set (x := B2R f) in *.
  (* k3 * f *)
  assert (B1 : 15 / 100 <= B2R k3 * x <= 32 / 100) by nra.
  destruct (mul_w k3 f (4 / 10) F3 Ff) as (V1 & G1); [fold x; rewrite Rabs_pos_eq; lra|lra|].
  set (t1 := mul k3 f) in *. fold x in V1. set (e1 := B2R t1 - B2R k3 * x) in *.
  assert (R1 : 14 / 100 <= B2R t1 <= 33 / 100) by (apply Rabs_le_inv in V1; unfold e1 in V1; lra).
  destruct (sub_w t1 k2 1 G1 F2) as (V2 & G2); [apply Rabs_le; lra|lra|].
  set (t2 := sub t1 k2) in *. set (e2 := B2R t2 - (B2R t1 - B2R k2)) in *.
  assert (R2 : - (92 / 100) <= B2R t2 <= - (71 / 100)) by (apply Rabs_le_inv in V2; unfold e2 in V2; lra).
  assert (B3 : - (184 / 100) <= B2R t2 * x <= - (71 / 100)) by nra.
  destruct (mul_w t2 f 2 G2 Ff) as (V3 & G3); [fold x; apply Rabs_le; lra|lra|].
  set (t3 := mul t2 f) in *. fold x in V3. set (e3 := B2R t3 - B2R t2 * x) in *.
  assert (R3 : - (186 / 100) <= B2R t3 <= - (70 / 100)) by (apply Rabs_le_inv in V3; unfold e3 in V3; lra).
  destruct (add_w t3 k1 3 G3 F1) as (V4 & G4); [apply Rabs_le; lra|lra|].
  set (t4 := add t3 k1) in *. set (e4 := B2R t4 - (B2R t3 + B2R k1)) in *.
  assert (R4 : 1 <= B2R t4 <= 24 / 10) by (apply Rabs_le_inv in V4; unfold e4 in V4; lra).
  assert (B5 : 1 <= B2R t4 * x <= 48 / 10) by nra.
  destruct (mul_w t4 f 5 G4 Ff) as (V5 & G5); [fold x; apply Rabs_le; lra|lra|].
  set (t5 := mul t4 f) in *. fold x in V5. set (e5 := B2R t5 - B2R t4 * x) in *.
  assert (R5 : 9 / 10 <= B2R t5 <= 49 / 10) by (apply Rabs_le_inv in V5; unfold e5 in V5; lra).
  destruct (sub_w t5 k0 4 G5 F0) as (V6 & G6); [apply Rabs_le; lra|lra|].
  split; [|exact G6]. set (t6 := sub t5 k0) in *. set (e6 := B2R t6 - (B2R t5 - B2R k0)) in *.
  (* the errors together *)
  set (g3 := B2R k3 - 15824870 / 100000000) in *. set (g2 := B2R k2 - 105187502 / 100000000) in *.
  set (g1 := B2R k1 - 304788415 / 100000000) in *. set (g0 := B2R k0 - c0) in *.
  replace (B2R t6 - cubic c0 x) with (e6 + e5 + (e4 + e3 + (e2 + e1) * x) * x + ((g3 * x - g2) * x + g1) * x - g0).
  2:{ unfold e6, e5, e4, e3, e2, e1, g3, g2, g1, g0, cubic. ring. }
  assert (Hx : 0 <= x <= 2) by lra.
  assert (S1 : Rabs (e2 + e1) <= 24 / 10 * u) by (eapply Rle_trans; [apply Rabs_triang|]; lra).
  apply (times _ x _ Hx) in S1.
  assert (S2 : Rabs (e4 + e3 + (e2 + e1) * x) <= 108 / 10 * u).
  { eapply Rle_trans; [apply Rabs_triang|]. assert (A := Rabs_triang e4 e3). lra. }
  apply (times _ x _ Hx) in S2.
  assert (T1 := times _ x _ Hx D3).
  assert (T2 : Rabs (g3 * x - g2) <= 6 / 10000000) by (apply Rabs_le; apply Rabs_le_inv in T1; unfold g3, g2 in *; lra).
  apply (times _ x _ Hx) in T2.
  assert (T3 : Rabs ((g3 * x - g2) * x + g1) <= 14 / 10000000) by (apply Rabs_le; apply Rabs_le_inv in T2; unfold g1 in *; lra).
  apply (times _ x _ Hx) in T3.
  apply Rabs_le. apply Rabs_le_inv in V6, V5, S2, T3. clear - V6 V5 S2 T3 D0' Pu. clearbody g0. lra.
Qed.
End Horner.
