(** The fast exponential: rounding errors. *)
From Coq Require Import ZArith Reals Lra Lia Bool Psatz List.
From Coquelicot Require Import Rcomplements.
From Flocq Require Import Core BinarySingleNaN.
From Verif Require Import Base FloatModel MongoModel CellModel FastModel FastReal FastRound FastSqrt FastLn FastExp.
Open Scope R_scope.
Open Scope outcome_scope.

(** e^a for small a. *)
Lemma exp_small : forall a, Rabs a <= 1 / 1000 -> Rabs (exp a - 1) <= 1002 / 1000 * Rabs a.
Proof.
  intros a Ha. assert (A := exp_ineq1_le a). assert (B := exp_ineq1_le (- a)).
  assert (E : exp a * exp (- a) = 1) by (rewrite <- exp_plus, Rplus_opp_r; apply exp_0).
  assert (Pe := exp_pos a). assert (Pe' := exp_pos (- a)).
  apply Rabs_le_inv in Ha.
  assert (U : exp a * (1 - a) <= 1) by (rewrite <- E; apply Rmult_le_compat_l; lra).
  assert (U2 : exp a <= 1 + a + 1002 / 1000 * (a * a)).
  { apply Rmult_le_reg_r with (1 - a); [lra|]. eapply Rle_trans; [exact U|]. nra. }
  destruct (Rle_lt_dec 0 a) as [L|L].
  - rewrite (Rabs_pos_eq a) by lra. apply Rabs_le. nra.
  - rewrite (Rabs_left a) by lra. apply Rabs_le. nra.
Qed.

Section Exp.
Variables prec emax : Z.
Variable Hp : FLX.Prec_gt_0 prec.
Variable He : Prec_lt_emax prec emax.
Notation flo := (binary_float prec emax).
Notation u := (ulp1 prec).
Notation least := (least emax).
Notation most := (most emax).
Notation mul := (mul prec emax Hp He).
Notation sub := (sub prec emax Hp He).
Notation add := (add prec emax Hp He).
Notation div := (div prec emax Hp He).
Notation int_to := (int_to prec emax Hp He).
Variable K : exp_consts prec emax.
Notation p_exp_ln2 := (p_exp_ln2 prec emax Hp He K).
Notation p_exp_pos := (p_exp_pos prec emax Hp He K).
Notation ApprExp := (ApprExp prec emax Hp He K).
Hypothesis Hu : u <= 6 / 100000000.
Hypothesis Hprec : (8 <= prec)%Z.
Hypothesis Hemax : (100 <= emax)%Z.
Notation L := (B2R (kln2 prec emax K)).
Hypothesis FK : is_finite (k1 _ _ K) = true /\ is_finite (k2 _ _ K) = true /\ is_finite (k3 _ _ K) = true
  /\ is_finite (k4 _ _ K) = true /\ is_finite (kln2 _ _ K) = true.
Hypothesis D1 : Rabs (B2R (k1 _ _ K) - - (9998684 / 10000000)) <= u.
Hypothesis D2 : Rabs (B2R (k2 _ _ K) - 4982926 / 10000000) <= u.
Hypothesis D3 : Rabs (B2R (k3 _ _ K) - - (1595332 / 10000000)) <= u.
Hypothesis D4 : Rabs (B2R (k4 _ _ K) - 293641 / 10000000) <= u.
Hypothesis DL : Rabs (L - ln 2) <= u / 10 + 1 / 10000000000.

Lemma least_small : least <= 1 / 1000.
Proof using Hemax.
  clear - Hemax.
  apply Rle_trans with (bpow radix2 (-10)); [apply bpow_le; lia|]. change (bpow radix2 (-10)) with (/ 1024). lra.
Qed.
Lemma most_big : bpow radix2 90 <= most.
Proof using Hemax. clear - Hemax. apply bpow_le. lia. Qed.
Lemma most_100 : 100 <= most.
Proof using Hemax.
  clear - Hemax. eapply Rle_trans; [|apply most_big; exact Hemax]. apply Rle_trans with (bpow radix2 7); [change (bpow radix2 7) with 128; lra|apply bpow_le; lia].
Qed.

Lemma mul_e : forall (a b : flo) B, is_finite a = true -> is_finite b = true -> Rabs (B2R a * B2R b) <= B -> B <= 100 ->
  Rabs (B2R (mul a b) - B2R a * B2R b) <= (B + 1 / 1000) * u /\ is_finite (mul a b) = true.
Proof using Hemax.
  clear - Hemax.
  intros a b B Fa Fb H HB. assert (M := most_100). assert (S := least_small).
  destruct (mul_abs prec emax Hp He a b Fa Fb ltac:(lra)) as (A & F).
  split; [|exact F]. assert (Pu := ulp1_pos prec).
  assert (u * Rabs (B2R a * B2R b) <= u * B) by (apply Rmult_le_compat_l; lra).
  assert (u * least <= u * (1 / 1000)) by (apply Rmult_le_compat_l; lra). lra.
Qed.

(** y times at most 0.694. *)
Lemma times7 : forall e f a, - (1 / 1000) <= f <= 6935 / 10000 -> Rabs e <= a -> Rabs (e * f) <= 694 / 1000 * a.
Proof.
  intros e f a Hf Ha. rewrite Rabs_mult. rewrite Rmult_comm. apply Rmult_le_compat; try apply Rabs_pos; [apply Rabs_le; lra|exact Ha].
Qed.

Definition poly (y : flo) : flo :=
  add (add (add (add (int_to 1) (mul (k1 _ _ K) y)) (mul (mul (k2 _ _ K) y) y)) (mul (mul (mul (k3 _ _ K) y) y) y))
      (mul (mul (mul (mul (k4 _ _ K) y) y) y) y).

Lemma int_1 : B2R (int_to 1) = 1 /\ is_finite (int_to 1) = true.
Proof using Hprec.
  clear - Hprec. apply int_to_exact. apply Z.le_trans with (2 ^ 1)%Z; [lia|apply Z.pow_le_mono_r; lia].
Qed.

Lemma step : forall (a y : flo) v E B, is_finite a = true -> is_finite y = true -> - (1 / 1000) <= B2R y <= 6935 / 10000 ->
  Rabs (B2R a - v) <= E * u -> Rabs v <= B -> B <= 1 -> E <= 5 ->
  Rabs (B2R (mul a y) - v * B2R y) <= (7 / 10 * (E + B) + 2 / 1000) * u /\ is_finite (mul a y) = true
  /\ Rabs (v * B2R y) <= 7 / 10 * B.
Proof using Hu Hemax.
  clear - Hu Hemax.
  intros a y v E B Fa Fy Hy Ha Hv HB HE. assert (Pu := ulp1_pos prec). assert (P := Rabs_pos v). assert (P' := Rabs_pos (B2R a - v)).
  assert (T := times7 (B2R a - v) (B2R y) (E * u) Hy Ha). assert (T2 := times7 v (B2R y) B Hy Hv).
  assert (Eu : E * u <= 5 * u) by (apply Rmult_le_compat_r; lra).
  destruct (mul_e a y (694 / 1000 * B + 1 / 1000) Fa Fy) as (V & F); [|lra|].
  - replace (B2R a * B2R y) with ((B2R a - v) * B2R y + v * B2R y) by ring. apply Rabs_le. apply Rabs_le_inv in T, T2. lra.
  - split; [|split]; [|exact F|lra].
    replace (B2R (mul a y) - v * B2R y) with (B2R (mul a y) - B2R a * B2R y + (B2R a - v) * B2R y) by ring.
    assert (Bu : 0 <= B * u) by (apply Rmult_le_pos; lra). assert (Eu0 : 0 <= E * u) by lra.
    apply Rabs_le. apply Rabs_le_inv in T, V. lra.
Qed.

Lemma plus : forall (a b : flo) v w E D B, is_finite a = true -> is_finite b = true -> Rabs (B2R a - v) <= E * u -> Rabs (B2R b - w) <= D * u ->
  Rabs (v + w) <= B -> B <= 4 -> E + D <= 20 ->
  Rabs (B2R (add a b) - (v + w)) <= (E + D + B + 2 / 1000) * u /\ is_finite (add a b) = true.
Proof using Hu Hemax.
  clear - Hu Hemax.
  intros a b v w E D B Fa Fb Ha Hb HB B4 H20. assert (Pu := ulp1_pos prec). assert (M := most_100).
  assert (T : (E + D) * u <= 20 * u) by (apply Rmult_le_compat_r; lra). apply Rabs_le_inv in Ha, Hb, HB.
  destruct (add_w prec emax Hp He a b (B + 2 / 1000) Fa Fb) as (V & F); [apply Rabs_le; lra|lra|].
  split; [|exact F]. apply Rabs_le_inv in V. apply Rabs_le. lra.
Qed.

Lemma poly_ok : forall y : flo, is_finite y = true -> - (1 / 1000) <= B2R y <= 6935 / 10000 ->
  Rabs (B2R (poly y) - quartic (B2R y)) <= 11 * u /\ is_finite (poly y) = true.
Proof using Hu Hprec Hemax FK D1 D2 D3 D4.
  intros y Fy Hy. destruct FK as (F1 & F2 & F3 & F4 & _). unfold poly. destruct int_1 as (V0 & F0).
  assert (Pu := ulp1_pos prec).
  assert (A0 : Rabs (B2R (int_to 1) - 1) <= 0 * u) by (rewrite V0; replace (1 - 1) with 0 by ring; rewrite Rabs_R0; lra).
  assert (A1 := D1). assert (A2 := D2). assert (A3 := D3). assert (A4 := D4). rewrite <- (Rmult_1_l u) in A1, A2, A3, A4.
  destruct (step _ y _ 1 1 F1 Fy Hy A1) as (B1 & G1 & C1); try lra; [apply Rabs_le; lra|].
  destruct (step _ y _ 1 (1 / 2) F2 Fy Hy A2) as (B2 & G2 & C2); try lra; [apply Rabs_le; lra|].
  destruct (step _ y _ _ _ G2 Fy Hy B2 C2) as (B2b & G2b & C2b); try lra.
  destruct (step _ y _ 1 (16 / 100) F3 Fy Hy A3) as (B3 & G3 & C3); try lra; [apply Rabs_le; lra|].
  destruct (step _ y _ _ _ G3 Fy Hy B3 C3) as (B3b & G3b & C3b); try lra.
  destruct (step _ y _ _ _ G3b Fy Hy B3b C3b) as (B3c & G3c & C3c); try lra.
  destruct (step _ y _ 1 (3 / 100) F4 Fy Hy A4) as (B4 & G4 & C4); try lra; [apply Rabs_le; lra|].
  destruct (step _ y _ _ _ G4 Fy Hy B4 C4) as (B4b & G4b & C4b); try lra.
  destruct (step _ y _ _ _ G4b Fy Hy B4b C4b) as (B4c & G4c & C4c); try lra.
  destruct (step _ y _ _ _ G4c Fy Hy B4c C4c) as (B4d & G4d & C4d); try lra.
  clear B2 C2 B3 C3 B3b C3b B4 C4 B4b C4b B4c C4c A1 A2 A3 A4.
  apply Rabs_le_inv in C1, C2b, C3c, C4d.
  destruct (plus _ _ _ _ _ _ (1701 / 1000) F0 G1 A0 B1) as (P1 & H1); try lra; [apply Rabs_le; lra|].
  destruct (plus _ _ _ _ _ _ (195 / 100) H1 G2b P1 B2b) as (P2 & H2); try lra; [apply Rabs_le; lra|].
  destruct (plus _ _ _ _ _ _ (201 / 100) H2 G3c P2 B3c) as (P3 & H3); try lra; [apply Rabs_le; lra|].
  destruct (plus _ _ _ _ _ _ (203 / 100) H3 G4d P3 B4d) as (P4 & H4); try lra; [apply Rabs_le; lra|].
  split; [|exact H4].
  match type of P4 with Rabs (_ - ?v) <= _ => replace (quartic (B2R y)) with v by (unfold quartic; ring) end.
  eapply Rle_trans; [exact P4|]. apply Rmult_le_compat_r; lra.
Qed.

Lemma exp_y : forall y, - (1 / 1000) <= y <= 6935 / 10000 -> 99 / 100 <= exp y <= 201 / 100.
Proof.
  intros y Hy. split.
  - assert (A := exp_ineq1_le y). lra.
  - assert (A : exp y <= exp (6935 / 10000)).
    { destruct (Rle_lt_or_eq_dec y (6935 / 10000)) as [X|X]; [lra|left; now apply exp_increasing|right; now rewrite X]. }
    assert (B : exp (6935 / 10000) = exp (ln 2) * exp (6935 / 10000 - ln 2)) by (rewrite <- exp_plus; f_equal; ring).
    rewrite exp_ln in B by lra. assert (G := ln2_bounds).
    assert (C := exp_small (6935 / 10000 - ln 2) ltac:(apply Rabs_le; lra)).
    rewrite (Rabs_pos_eq (6935 / 10000 - ln 2)) in C by lra. apply Rabs_le_inv in C. lra.
Qed.

(** (1 + d) / (1 + t). *)
Lemma quot : forall t d m, Rabs t <= m -> Rabs d <= u -> m <= 1 / 10000 -> Rabs ((1 + d) / (1 + t) - 1) <= (m + u) * (10002 / 10000).
Proof using Hu.
  clear - Hu. intros t d m Ht Hd Hm. assert (Pm := Rabs_pos t). apply Rabs_le_inv in Hd.
  assert (T' := Ht). apply Rabs_le_inv in T'.
  replace ((1 + d) / (1 + t) - 1) with ((d - t) / (1 + t)) by (field; lra).
  assert (Pd := ulp1_pos prec).
  unfold Rdiv. rewrite Rabs_mult. apply Rmult_le_compat; try apply Rabs_pos; [apply Rabs_le; lra|].
  rewrite Rabs_inv, Rabs_pos_eq by lra.
  apply Rmult_le_reg_r with (1 + t); [lra|]. rewrite Rinv_l by lra. lra.
Qed.

Lemma ln2_ok : forall y : flo, is_finite y = true -> - (1 / 1000) <= B2R y <= 6935 / 10000 ->
  Rabs (B2R (p_exp_ln2 y) * exp (- B2R y) - 1) <= 361 / 100000000 + 24 * u /\ is_finite (p_exp_ln2 y) = true
  /\ 95 / 100 <= B2R (p_exp_ln2 y) <= 21 / 10.
Proof using Hu Hprec Hemax FK D1 D2 D3 D4.
  intros y Fy Hy. destruct (poly_ok y Fy Hy) as (P & F). unfold FastModel.p_exp_ln2. fold (poly y).
  destruct int_1 as (V0 & F0). assert (Pu := ulp1_pos prec). assert (M := most_100). assert (S := least_small).
  assert (Q := quartic_pos _ Hy). assert (X := quartic_exp _ Hy). assert (G := exp_y _ Hy).
  set (q := B2R (poly y)) in *. set (q0 := quartic (B2R y)) in *. set (e := exp (B2R y)) in *.
  assert (P' := P). apply Rabs_le_inv in P'.
  assert (Q1 : 48 / 100 <= q <= 1003 / 1000) by (clear - P' Q Hu; lra).
  assert (I : 99 / 100 <= 1 / q <= 209 / 100).
  { split; apply Rmult_le_reg_r with q; try lra; unfold Rdiv at 2; field_simplify; lra. }
  destruct (div_rel prec emax Hp He (int_to 1) (poly y) F0) as (d & Hd & V & FF); rewrite ?V0; fold q.
  { lra. } { rewrite Rabs_pos_eq; lra. } { rewrite Rabs_pos_eq; lra. }
  rewrite V0 in V. fold q in V. rewrite V, exp_Ropp. fold e.
  set (t := (q0 * e - 1) + (q - q0) * e).
  assert (T : Rabs t <= 36 / 10000000 + 222 / 10 * u).
  { assert (Rabs ((q - q0) * e) <= 11 * u * (201 / 100)).
    { rewrite Rabs_mult. apply Rmult_le_compat; try apply Rabs_pos; [exact P|rewrite Rabs_pos_eq; lra]. }
    unfold t. eapply Rle_trans; [apply Rabs_triang|]. lra. }
  assert (Tt := T). apply Rabs_le_inv in Tt.
  replace (1 / q * (1 + d) * / e - 1) with ((1 + d) / (1 + t) - 1) by (replace (1 + t) with (q * e) by (unfold t; ring); field; split; lra).
  assert (U := quot t d _ T Hd ltac:(lra)).
  split; [|split]; [lra|exact FF|]. apply Rabs_le_inv in Hd.
  clear - I Hd Hu. set (i := 1 / q) in *. clearbody i. split; nra.
Qed.

Lemma L_range : 69314 / 100000 <= L <= 69315 / 100000.
Proof using Hu DL. assert (A := DL). apply Rabs_le_inv in A. assert (B := ln2_bounds). clear - A B Hu. lra. Qed.

Lemma Btrunc_r : forall x : flo, Btrunc x = Ztrunc (B2R x).
Proof.
  intros x. apply eq_IZR. rewrite (Btrunc_correct prec emax He). unfold round, F2R, scaled_mantissa, cexp, FIX_exp. cbn [Fnum Fexp].
  change (bpow radix2 (- 0)) with 1. change (bpow radix2 0) with 1. now rewrite !Rmult_1_r.
Qed.

(** The number of halvings. *)
Lemma k_ok : forall x : flo, is_finite x = true -> 0 <= B2R x <= 4436 / 100 ->
  exists k, to_long prec emax (div x (kln2 _ _ K)) = Ok k /\ (0 <= k <= 63)%Z
  /\ - (65 * u) <= B2R x - IZR k * L <= 69315 / 100000 + 65 * u
  /\ (B2R x <= 4366 / 100 -> (k <= 62)%Z) /\ (4367 / 100 <= B2R x -> k = 63%Z).
Proof using Hu Hprec Hemax FK DL.
  intros x Fx Hx. destruct FK as (_ & _ & _ & _ & F5). assert (R := L_range). assert (A := DL). apply Rabs_le_inv in A.
  assert (B := ln2_bounds). assert (Pu := ulp1_pos prec). assert (M := most_100). assert (S := least_small).
  set (l := L) in *.
  assert (Q : 0 <= B2R x / l <= 64 - 1 / 1000).
  { split; [apply Rdiv_le_0_compat; lra|]. apply Rmult_le_reg_r with l; [lra|]. unfold Rdiv. rewrite Rmult_assoc, Rinv_l by lra. lra. }
  destruct (div_abs prec emax Hp He x (kln2 _ _ K) Fx) as (V & F); fold l; [lra|rewrite Rabs_pos_eq; lra|]. fold l in V.
  rewrite (Rabs_pos_eq (B2R x / l)) in V by lra.
  assert (V' : Rabs (B2R (div x (kln2 _ _ K)) - B2R x / l) <= 641 / 10 * u).
  { eapply Rle_trans; [exact V|]. assert (u * (B2R x / l) <= u * 64) by (apply Rmult_le_compat_l; lra).
    assert (u * least <= u * (1 / 1000)) by (apply Rmult_le_compat_l; lra). lra. }
  assert (N := div_ge prec emax Hp He x (kln2 _ _ K) 0 Fx ltac:(fold l; lra)). fold l in N.
  specialize (N ltac:(split; [lia|apply Z.pow_nonneg; lia]) ltac:(lra) F).
  set (v := B2R (div x (kln2 _ _ K))) in *. apply Rabs_le_inv in V'. clear V.
  assert (T : Btrunc (div x (kln2 _ _ K)) = Zfloor v) by (rewrite Btrunc_r; apply Ztrunc_floor; exact N).
  assert (Fl := Zfloor_lb v). assert (Fu := Zfloor_ub v). set (k := Zfloor v) in *.
  assert (K0 : (0 <= k)%Z) by (apply Zfloor_lub; exact N).
  assert (K63 : (k <= 63)%Z). { apply Z.lt_succ_r, lt_IZR. apply Rle_lt_trans with v; [exact Fl|]. change (IZR (Z.succ 63)) with 64. lra. }
  exists k.
  assert (XL : B2R x / l * l = B2R x) by (field; lra).
  set (w := B2R x / l) in *.
  assert (W : - (641 / 10 * u) <= w - IZR k <= 1 + 641 / 10 * u) by lra.
  repeat split; auto.
  - unfold to_long. rewrite F, T. replace ((- 2 ^ 63 <=? k) && (k <? 2 ^ 63))%Z with true by lia. reflexivity.
  - rewrite <- XL. clear - W R Pu Hu. nra.
  - rewrite <- XL. clear - W R Pu Hu. nra.
  - intros H. apply Z.lt_succ_r, lt_IZR. apply Rle_lt_trans with v; [exact Fl|]. change (IZR (Z.succ 62)) with 63.
    assert (w <= 63 - 1 / 100); [|lra]. apply Rmult_le_reg_r with l; [lra|]. rewrite XL. lra.
  - intros H. apply Z.le_antisymm; [exact K63|]. apply Zfloor_lub.
    assert (63 + 1 / 1000 <= w); [|lra]. apply Rmult_le_reg_r with l; [lra|]. rewrite XL. lra.
Qed.

(** What is left after taking k times ln 2 away. *)
Lemma rest_ok : forall (x : flo) k, is_finite x = true -> (0 <= k <= 63)%Z -> - (65 * u) <= B2R x - IZR k * L <= 69315 / 100000 + 65 * u ->
  Rabs (B2R (sub x (mul (int_to k) (kln2 _ _ K))) - (B2R x - IZR k * L)) <= 46 * u
  /\ is_finite (sub x (mul (int_to k) (kln2 _ _ K))) = true.
Proof using Hu Hprec Hemax FK DL.
  intros x k Fx Hk H. destruct FK as (_ & _ & _ & _ & F5). assert (R := L_range).
  assert (Pu := ulp1_pos prec). assert (M := most_100).
  destruct (int_to_exact prec emax Hp He k) as (Vk & Fk).
  { apply Z.le_trans with (2 ^ 6)%Z; [lia|apply Z.pow_le_mono_r; lia]. }
  assert (R63 : 0 <= IZR k <= 63) by (split; apply IZR_le; lia).
  assert (KL : 0 <= IZR k * L <= 44) by (clear - R R63; set (l := L) in *; clearbody l; nra).
  destruct (mul_e (int_to k) (kln2 _ _ K) 44 Fk F5) as (V & F); [rewrite Vk, Rabs_pos_eq; lra|lra|]. rewrite Vk in V.
  set (m := mul (int_to k) (kln2 _ _ K)) in *. apply Rabs_le_inv in V.
  destruct (sub_w prec emax Hp He x m (7 / 10) Fx F) as (V2 & F2); [apply Rabs_le; lra|lra|].
  apply Rabs_le_inv in V2. split; [apply Rabs_le; lra|exact F2].
Qed.

Lemma exp_k : forall k, (0 <= k)%Z -> exp (IZR k * ln 2) = bpow radix2 k.
Proof. intros k Hk. rewrite (bpow_exp radix2 k). reflexivity. Qed.

Definition sign_of (k : Z) : R := if (k =? 63)%Z then -1 else 1.

Lemma pos_ok : forall x : flo, is_finite x = true -> 0 <= B2R x <= 4436 / 100 ->
  exists k r, p_exp_pos x = Ok r /\ is_finite r = true /\ (0 <= k <= 63)%Z
  /\ Rabs (sign_of k * B2R r * exp (- B2R x) - 1) <= 37 / 10000000 + 81 * u
  /\ (B2R x <= 4366 / 100 -> (k <= 62)%Z) /\ (4367 / 100 <= B2R x -> k = 63%Z).
Proof using Hu Hprec Hemax FK D1 D2 D3 D4 DL.
  intros x Fx Hx. destruct (k_ok x Fx Hx) as (k & E & Hk & Hy & K1 & K2).
  destruct (rest_ok x k Fx Hk Hy) as (V & F). assert (Pu := ulp1_pos prec).
  set (y := sub x (mul (int_to k) (kln2 _ _ K))) in *. apply Rabs_le_inv in V.
  assert (Hy' : - (1 / 1000) <= B2R y <= 6935 / 10000) by lra.
  destruct (ln2_ok y F Hy') as (P & G & PR).
  set (p := p_exp_ln2 y) in *.
  assert (Tw : exists t, shift1 k = Ok t /\ B2R (int_to t) = sign_of k * bpow radix2 k /\ is_finite (int_to t) = true).
  { unfold shift1, sign_of. replace ((0 <=? k) && (k <? 64))%Z with true by lia. destruct (Z.eqb_spec k 63) as [->|Nk].
    - exists (- 2 ^ 63)%Z. destruct (int_to_neg prec emax Hp He 63 ltac:(lia)) as (Q1 & Q2). repeat split; auto. rewrite Q1. ring.
    - exists (2 ^ k)%Z. destruct (int_to_pow prec emax Hp He k ltac:(lia)) as (Q1 & Q2). repeat split; auto. rewrite Q1. ring. }
  destruct Tw as (t & Et & Vt & Ft).
  assert (Sk : Rabs (sign_of k) = 1 /\ sign_of k * sign_of k = 1).
  { unfold sign_of. destruct (k =? 63)%Z; split; try ring; [rewrite Rabs_left|rewrite Rabs_pos_eq]; lra. }
  destruct Sk as (Sk & Sk2).
  assert (B0 := bpow_gt_0 radix2 k).
  assert (B1 : 1 <= bpow radix2 k) by (change 1 with (bpow radix2 0); apply bpow_le; lia).
  assert (B2 : bpow radix2 k <= bpow radix2 63) by (apply bpow_le; lia).
  assert (MB := most_big). assert (B3 : bpow radix2 63 * (21 / 10) <= bpow radix2 90).
  { apply Rle_trans with (bpow radix2 63 * bpow radix2 27); [|rewrite <- bpow_plus; apply bpow_le; lia].
    apply Rmult_le_compat_l; [apply bpow_ge_0|]. apply Rle_trans with (bpow radix2 2); [change (bpow radix2 2) with 4; lra|apply bpow_le; lia]. }
  assert (S := least_small).
  destruct (mul_rel prec emax Hp He (int_to t) p Ft G) as (d & Hd & Vr & Fr).
  { rewrite Vt, !Rabs_mult, Sk, Rmult_1_l, (Rabs_pos_eq (bpow radix2 k)), Rabs_pos_eq by lra.
    eapply Rle_trans; [|exact MB]. eapply Rle_trans; [|exact B3]. apply Rmult_le_compat; lra. }
  { rewrite Vt, !Rabs_mult, Sk, Rmult_1_l, (Rabs_pos_eq (bpow radix2 k)), Rabs_pos_eq by lra.
    apply Rle_trans with (1 * (95 / 100)); [lra|]. apply Rmult_le_compat; lra. }
  exists k, (mul (int_to t) p). split; [|split]; [|exact Fr|split; [exact Hk|split; [|split; assumption]]].
  { unfold FastModel.p_exp_pos. rewrite E. cbn [obind]. rewrite Et. reflexivity. }
  rewrite Vr, Vt.
  set (eps := IZR k * (ln 2 - L) + (B2R y - (B2R x - IZR k * L))).
  assert (Ex : exp (- B2R x) = exp (- B2R y) * exp eps * / bpow radix2 k).
  { rewrite <- exp_k by lia. rewrite <- exp_Ropp, <- !exp_plus. f_equal. unfold eps. ring. }
  assert (Hk63 : 0 <= IZR k <= 63) by (split; apply IZR_le; lia).
  assert (KL : Rabs (IZR k * (ln 2 - L)) <= 63 * (u / 10 + 1 / 10000000000)).
  { rewrite Rabs_mult, (Rabs_minus_sym (ln 2)).
    apply Rmult_le_compat; try apply Rabs_pos; [rewrite Rabs_pos_eq; lra|exact DL]. }
  apply Rabs_le_inv in KL.
  assert (He' : Rabs eps <= 524 / 10 * u + 7 / 1000000000) by (unfold eps; apply Rabs_le; lra).
  assert (Se := exp_small eps ltac:(lra)).
  assert (Se' : Rabs (exp eps - 1) <= 526 / 10 * u + 8 / 1000000000) by lra.
  rewrite Ex.
  replace (sign_of k * (sign_of k * bpow radix2 k * B2R p * (1 + d)) * (exp (- B2R y) * exp eps * / bpow radix2 k) - 1)
    with ((sign_of k * sign_of k) * (B2R p * exp (- B2R y)) * (1 + d) * exp eps - 1) by (field; lra).
  rewrite Sk2, Rmult_1_l. clear - P Hd Se' Hu Pu.
  set (f := B2R p * exp (- B2R y)) in *. set (g := exp eps) in *. clearbody f g.
  apply Rabs_le_inv in P, Hd, Se'. apply Rabs_le.
  set (m1 := 361 / 100000000 + 24 * u) in *. assert (M1 : 0 <= m1 <= 6 / 1000000) by (unfold m1; lra).
  assert (A : - (m1 + u + 1 / 100000000) <= f * (1 + d) - 1 <= m1 + u + 1 / 100000000) by (clear - P Hd M1 Hu Pu; nra).
  set (m2 := m1 + u + 1 / 100000000) in *. assert (M2 : 0 <= m2 <= 7 / 1000000) by (unfold m2; lra).
  set (m3 := 526 / 10 * u + 8 / 1000000000) in *. assert (M3 : 0 <= m3 <= 4 / 1000000) by (unfold m3; lra).
  set (h := f * (1 + d)) in *. clearbody h.
  assert (Bb : - (m2 + m3 + 1 / 1000000000) <= h * g - 1 <= m2 + m3 + 1 / 1000000000) by (clear - A Se' M2 M3; nra).
  unfold m2, m3, m1 in Bb. lra.
Qed.

Lemma int_0 : B2R (int_to 0) = 0 /\ is_finite (int_to 0) = true.
Proof using Hprec. clear - Hprec. apply int_to_exact. apply Z.pow_nonneg. lia. Qed.

Lemma side : forall x : flo, is_finite x = true -> Bleb (int_to 0) x = Rle_bool 0 (B2R x).
Proof using Hprec. intros x Fx. destruct int_0 as (V & F). rewrite Bleb_correct by assumption. now rewrite V. Qed.

(** The sign: +1 up to 43.66 in magnitude, -1 from 43.67 on. *)
Lemma exp_gen : forall x : flo, is_finite x = true -> Rabs (B2R x) <= 4436 / 100 ->
  exists k r, ApprExp x = Ok r /\ is_finite r = true /\ (0 <= k <= 63)%Z
  /\ Rabs (sign_of k * B2R r * exp (- B2R x) - 1) <= 38 / 10000000 + 83 * u
  /\ (Rabs (B2R x) <= 4366 / 100 -> (k <= 62)%Z) /\ (4367 / 100 <= Rabs (B2R x) -> k = 63%Z).
Proof using Hu Hprec Hemax FK D1 D2 D3 D4 DL.
  intros x Fx Hx. unfold FastModel.ApprExp. rewrite side by exact Fx. assert (Pu := ulp1_pos prec).
  destruct (Rle_bool_spec 0 (B2R x)) as [S|S].
  - rewrite Rabs_pos_eq in * by exact S. destruct (pos_ok x Fx ltac:(lra)) as (k & r & E & F & Hk & A & K1 & K2).
    exists k, r. repeat split; auto; try lia. lra.
  - rewrite Rabs_left in * by exact S. assert (Fx' : is_finite (Bopp x) = true) by now rewrite is_finite_Bopp.
    destruct (pos_ok (Bopp x) Fx') as (k & r & E & F & Hk & A & K1 & K2); [rewrite B2R_Bopp; lra|].
    rewrite B2R_Bopp in *. rewrite Ropp_involutive in A.
    rewrite E. cbn [obind]. destruct int_1 as (V1 & F1). assert (M := most_big). assert (Le := least_small).
    assert (Sk : sign_of k * sign_of k = 1 /\ (sign_of k = 1 \/ sign_of k = -1)).
    { unfold sign_of. destruct (k =? 63)%Z; split; try ring; auto. }
    destruct Sk as (Sk & Sk1).
    set (s := sign_of k) in *. set (w := s * B2R r * exp (B2R x)) in *.
    assert (A' := A). apply Rabs_le_inv in A'.
    assert (Pe := exp_pos (B2R x)).
    assert (Hr : s * B2R r = w * exp (- B2R x)).
    { unfold w. rewrite exp_Ropp. field. lra. }
    assert (Hr2 : B2R r = s * w * exp (- B2R x)).
    { transitivity (s * s * B2R r); [rewrite Sk; ring|]. rewrite Rmult_assoc, Hr. ring. }
    assert (Pm := exp_pos (- B2R x)).
    assert (Ww : 99 / 100 <= w <= 101 / 100) by lra.
    assert (X1 : 1 <= exp (- B2R x)) by (assert (Q := exp_ineq1_le (- B2R x)); lra).
    assert (X2 : exp (- B2R x) <= bpow radix2 64).
    { rewrite <- exp_k by lia. left. apply exp_increasing. assert (Q := ln2_bounds). lra. }
    assert (Nz : B2R r <> 0).
    { rewrite Hr2. apply Rmult_integral_contrapositive_currified; [|lra]. apply Rmult_integral_contrapositive_currified; [|lra]. destruct Sk1 as [Z|Z]; rewrite Z; lra. }
    assert (Inv : 1 / B2R r = s * (/ w * exp (B2R x))).
    { rewrite Hr2, exp_Ropp. apply Rmult_eq_reg_l with s; [|destruct Sk1 as [Z|Z]; rewrite Z; lra].
      rewrite <- Rmult_assoc, Sk. field. repeat split; destruct Sk1 as [Z|Z]; rewrite ?Z; lra. }
    assert (Iw : 99 / 100 <= / w <= 102 / 100).
    { split; apply Rmult_le_reg_r with w; try lra; rewrite Rinv_l; lra. }
    assert (X3 : bpow radix2 (-64) <= exp (B2R x) <= 1).
    { split; [|rewrite <- exp_0; left; now apply exp_increasing]. 
      replace (exp (B2R x)) with (/ exp (- B2R x)) by (rewrite exp_Ropp, Rinv_inv; reflexivity).
      change (-64)%Z with (- (64))%Z. rewrite bpow_opp. apply Rinv_le_contravar; [lra|exact X2]. }
    assert (Ai : Rabs (1 / B2R r) = / w * exp (B2R x)).
    { rewrite Inv, Rabs_mult. assert (Rabs s = 1) as -> by (destruct Sk1 as [Z|Z]; rewrite Z; [apply Rabs_pos_eq|rewrite Rabs_left]; lra).
      rewrite Rmult_1_l. apply Rabs_pos_eq. apply Rmult_le_pos; lra. }
    destruct (div_rel prec emax Hp He (int_to 1) r F1 Nz) as (d & Hd & V & Fd); rewrite ?V1, ?Ai.
    { apply Rle_trans with 2; [nra|]. assert (T := most_100). lra. }
    { apply Rle_trans with (/ 2 * bpow radix2 (-64)).
      - change (/ 2) with (bpow radix2 (-1)). rewrite <- bpow_plus. apply bpow_le. lia.
      - apply Rmult_le_compat; try lra. apply bpow_ge_0. }
    exists k, (div (int_to 1) r). split; [reflexivity|]. split; [exact Fd|]. split; [exact Hk|]. split; [|split; assumption].
    rewrite V, V1, Inv. fold s. rewrite exp_Ropp.
    replace (s * (s * (/ w * exp (B2R x)) * (1 + d)) * / exp (B2R x) - 1) with ((s * s) * ((1 + d) / (1 + (w - 1))) - 1)
      by (replace (1 + (w - 1)) with w by ring; field; lra).
    rewrite Sk, Rmult_1_l. assert (U := quot (w - 1) d _ A Hd ltac:(lra)). lra.
Qed.

(** From 44.4 on in magnitude the behaviour is undefined. *)
Lemma pos_ub : forall x : flo, is_finite x = true -> 444 / 10 <= B2R x -> p_exp_pos x = UB.
Proof using Hu Hprec Hemax FK DL.
  intros x Fx Hx. unfold FastModel.p_exp_pos, to_long. destruct (is_finite (div x (kln2 _ _ K))) eqn:F; [|reflexivity].
  assert (R := L_range). assert (A := DL). apply Rabs_le_inv in A. assert (B := ln2_bounds). assert (Pu := ulp1_pos prec).
  assert (N := div_ge prec emax Hp He x (kln2 _ _ K) 64 Fx ltac:(lra)).
  specialize (N ltac:(split; [lia|apply Z.le_trans with (2 ^ 6)%Z; [lia|apply Z.pow_le_mono_r; lia]])).
  specialize (N ltac:(apply Rmult_le_reg_r with L; [lra|]; unfold Rdiv; rewrite Rmult_assoc, Rinv_l by lra; lra) F).
  assert (T : (64 <= Btrunc (div x (kln2 _ _ K)))%Z).
  { rewrite Btrunc_r, Ztrunc_floor by lra. apply Zfloor_lub. exact N. }
  destruct ((- 2 ^ 63 <=? Btrunc _) && (Btrunc _ <? 2 ^ 63))%Z; [|reflexivity]. cbn [obind]. unfold shift1.
  replace ((0 <=? _) && (_ <? 64))%Z with false by lia. reflexivity.
Qed.

Lemma exp_ub : forall x : flo, is_finite x = true -> 444 / 10 <= Rabs (B2R x) -> ApprExp x = UB.
Proof using Hu Hprec Hemax FK DL.
  intros x Fx Hx. unfold FastModel.ApprExp. rewrite side by exact Fx.
  destruct (Rle_bool_spec 0 (B2R x)) as [S|S].
  - rewrite Rabs_pos_eq in Hx by exact S. now apply pos_ub.
  - rewrite Rabs_left in Hx by exact S. rewrite pos_ub; [reflexivity|now rewrite is_finite_Bopp|rewrite B2R_Bopp; exact Hx].
Qed.
End Exp.
