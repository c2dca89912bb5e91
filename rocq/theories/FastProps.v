(** C99-C109: the fast approximations behind CalSqrt, CalLn, CalExp and CalPow
    with USE_APPR_PAL_MATH, and the guarded Expo and Power. Accuracy is stated
    against the real functions of the standard library. *)
From Coq Require Import ZArith Reals Lra Lia Bool Psatz List.
From Flocq Require Import Core BinarySingleNaN.
From Verif Require Import Base FloatModel TypeModel MongoModel CellModel FastModel FastReal FastRound FastBits FastSqrt FastLn FastLn2 FastExp2 FastExp3 FastPow FastPow2 FastPow3 FastFail.
Import ListNotations.
Open Scope R_scope.
Open Scope outcome_scope.

Definition two64 : f64 := num64 4503599627370496 (-51) eq_refl.
Definition two32 : f32 := num32 8388608 (-22) eq_refl.
Lemma two64_value : B2R two64 = 2.
Proof. unfold two64, num64; cbn [B2R]; unfold F2R; cbn [Fnum Fexp SpecFloat.cond_Zopp]. change (bpow radix2 (-51)) with (/ 2251799813685248). lra. Qed.
Lemma two32_value : B2R two32 = 2.
Proof. unfold two32, num32; cbn [B2R]; unfold F2R; cbn [Fnum Fexp SpecFloat.cond_Zopp]. change (bpow radix2 (-22)) with (/ 4194304). lra. Qed.
Lemma small_two64 : bpow radix2 (-1022) <= 2.
Proof. change 2 with (bpow radix2 1). apply bpow_le. lia. Qed.
Lemma small_two32 : bpow radix2 (-126) <= 2.
Proof. change 2 with (bpow radix2 1). apply bpow_le. lia. Qed.
Lemma ln2_r : 693 / 1000 <= ln 2 <= 694 / 1000.
Proof. assert (B := ln2_bounds). lra. Qed.

(** ** C99: the root of every positive normal number *)
Theorem C99_double : forall z : f64, is_finite z = true -> bpow radix2 (-1022) <= B2R z ->
  is_finite (ApprSqrt64 z) = true /\ Rabs (B2R (ApprSqrt64 z) - sqrt (B2R z)) <= 5 / 100000000000 * sqrt (B2R z).
Proof. exact sqrt64_ok. Qed.
Print Assumptions C99_double.
Theorem C99_float : forall z : f32, is_finite z = true -> bpow radix2 (-126) <= B2R z ->
  is_finite (ApprSqrt32 z) = true /\ Rabs (B2R (ApprSqrt32 z) - sqrt (B2R z)) <= 4 / 10000000 * sqrt (B2R z).
Proof. exact sqrt32_ok. Qed.
Print Assumptions C99_float.
Example C99_ex : is_finite two64 = true /\ bpow radix2 (-1022) <= B2R two64 /\ is_finite two32 = true /\ bpow radix2 (-126) <= B2R two32
  /\ B2SF (ApprSqrt64 two64) = SpecFloat.S754_finite false 6369051672525689 (-52).
Proof. rewrite two64_value, two32_value. split; [reflexivity|]. split; [exact small_two64|]. split; [reflexivity|]. split; [exact small_two32|]. vm_compute. reflexivity. Qed.

(** ** C100: zeros are kept; infinity and a negative number give infinities of
    the wrong kind, subnormal numbers are not approximated *)
Theorem C100_zero : forall s, ApprSqrt64 (B754_zero s) = B754_zero s /\ ApprSqrt32 (B754_zero s) = B754_zero s.
Proof. exact sqrt_zero. Qed.
Print Assumptions C100_zero.
Theorem C100_infinity_refuted : ApprSqrt64 (B754_infinity false) = B754_infinity true /\ ApprSqrt32 (B754_infinity false) = B754_infinity true.
Proof. exact sqrt_inf. Qed.
Print Assumptions C100_infinity_refuted.
Theorem C100_negative_refuted : exists z : f64, B2R z = -1 /\ is_nan (ApprSqrt64 z) = false /\ ApprSqrt64 z = B754_infinity false.
Proof.
  exists (lit64 (-1) 0). destruct sqrt_minus_one as (E & _). rewrite E. split; [|split; reflexivity].
  assert (H : lit64 (-1) 0 = neg64 4503599627370496 (-52) eq_refl) by (apply B2SF_inj; vm_compute; reflexivity). rewrite H.
  unfold neg64; cbn [B2R]; unfold F2R; cbn [Fnum Fexp SpecFloat.cond_Zopp Z.opp]. change (bpow radix2 (-52)) with (/ 4503599627370496). lra.
Qed.
Print Assumptions C100_negative_refuted.
Theorem C100_subnormal_refuted : exists z : f64, is_finite z = true /\ 0 < B2R z /\ B2R (ApprSqrt64 z) < / 1000000 * sqrt (B2R z).
Proof.
  set (z := num64 1 (-1074) eq_refl). exists z.
  assert (V : B2R z = bpow radix2 (-1074)) by (unfold z, num64; cbn [B2R]; unfold F2R; cbn [Fnum Fexp SpecFloat.cond_Zopp]; ring).
  split; [reflexivity|]. split; [rewrite V; apply bpow_gt_0|].
  assert (S : sqrt (B2R z) = bpow radix2 (-537)).
  { rewrite V. replace (-1074)%Z with (-537 + -537)%Z by lia. rewrite bpow_plus. apply sqrt_square. apply bpow_ge_0. }
  rewrite S.
  assert (L : B2R (ApprSqrt64 z) < bpow radix2 (-560)).
  { assert (H : Bltb (ApprSqrt64 z) (binary_normalize 53 1024 prec_gt_0_53 prec_lt_53 mode_NE 1 (-560) false) = true) by (vm_compute; reflexivity).
    assert (F : is_finite (ApprSqrt64 z) = true) by (vm_compute; reflexivity).
    assert (F2 : binary_normalize 53 1024 prec_gt_0_53 prec_lt_53 mode_NE 1 (-560) false = num64 4503599627370496 (-612) eq_refl) by (apply B2SF_inj; vm_compute; reflexivity).
    rewrite F2 in H. rewrite Bltb_correct in H by (exact F || reflexivity).
    set (r := ApprSqrt64 z) in *. clearbody r. set (t := num64 4503599627370496 (-612) eq_refl) in *.
    assert (X : B2R r < B2R t) by (clear - H; clearbody t; revert H; case Rlt_bool_spec; [auto|discriminate]).
    eapply Rlt_le_trans; [exact X|]. right. unfold t, num64; cbn [B2R]; unfold F2R; cbn [Fnum Fexp SpecFloat.cond_Zopp].
    replace (-560)%Z with (52 + -612)%Z by lia. rewrite bpow_plus. f_equal. }
  eapply Rlt_le_trans; [exact L|]. replace (-560)%Z with (-23 + -537)%Z by lia. rewrite bpow_plus.
  apply Rmult_le_compat_r; [apply bpow_ge_0|]. change (bpow radix2 (-23)) with (/ 8388608). lra.
Qed.
Print Assumptions C100_subnormal_refuted.
Example C100_ex : B2SF (ApprSqrt64 (B754_zero true)) = SpecFloat.S754_zero true.
Proof. vm_compute. reflexivity. Qed.

(** ** C101: the logarithm of every positive normal number *)
Theorem C101_double : forall z : f64, is_finite z = true -> bpow radix2 (-1022) <= B2R z ->
  is_finite (ApprLn64 z) = true /\ Rabs (B2R (ApprLn64 z) - ln (B2R z)) <= 46 / 100000.
Proof. exact ln64_ok. Qed.
Print Assumptions C101_double.
Theorem C101_float : forall z : f32, is_finite z = true -> bpow radix2 (-126) <= B2R z ->
  is_finite (ApprLn32 z) = true /\ Rabs (B2R (ApprLn32 z) - ln (B2R z)) <= 49 / 100000.
Proof. exact ln32_ok. Qed.
Print Assumptions C101_float.
(** The error is absolute: at 1 the logarithm is not 0, so no relative bound holds. *)
Theorem C101_one_refuted : B2R (lit64 1 0) = 1 /\ 44 / 100000 <= B2R (ApprLn64 (lit64 1 0)).
Proof.
  split; [|rewrite ln64_one; lra].
  assert (H : lit64 1 0 = num64 4503599627370496 (-52) eq_refl) by (apply B2SF_inj; vm_compute; reflexivity). rewrite H.
  unfold num64; cbn [B2R]; unfold F2R; cbn [Fnum Fexp SpecFloat.cond_Zopp]. change (bpow radix2 (-52)) with (/ 4503599627370496). lra.
Qed.
Print Assumptions C101_one_refuted.
Example C101_ex : is_finite two64 = true /\ bpow radix2 (-1022) <= B2R two64 /\ Rabs (B2R (ApprLn64 two64) - ln 2) <= 46 / 100000.
Proof.
  assert (B : bpow radix2 (-1022) <= B2R two64) by (rewrite two64_value; exact small_two64).
  split; [reflexivity|]. split; [exact B|]. assert (H := proj2 (C101_double two64 eq_refl B)). rewrite two64_value in H. exact H.
Qed.

(** ** C102: outside its domain the logarithm returns ordinary numbers *)
Theorem C102_negative_refuted : forall z : f64, ApprLn64 (Bopp z) = ApprLn64 z.
Proof. exact ln64_opp. Qed.
Print Assumptions C102_negative_refuted.
Theorem C102_negative_float_refuted : forall z : f32, ApprLn32 (Bopp z) = ApprLn32 z.
Proof. exact ln32_opp. Qed.
Print Assumptions C102_negative_float_refuted.
Theorem C102_finite_refuted : is_finite (ApprLn64 (B754_zero false)) = true /\ is_finite (ApprLn64 (B754_infinity false)) = true
  /\ -710 <= B2R (ApprLn64 (B754_zero false)) /\ B2R (ApprLn64 (B754_infinity false)) <= 710.
Proof. destruct ln64_zero as (F & V). destruct ln64_inf as (F' & V'). rewrite V, V'. repeat split; auto; lra. Qed.
Print Assumptions C102_finite_refuted.
Example C102_ex : is_finite (ApprLn64 (Bopp two64)) = true /\ Rabs (B2R (ApprLn64 (Bopp two64)) - ln 2) <= 46 / 100000.
Proof.
  rewrite C102_negative_refuted. destruct C101_ex as (_ & B & H). split; [exact (proj1 (C101_double two64 eq_refl B))|exact H].
Qed.

(** ** C103: the exponential up to 43.66 *)
Theorem C103_double : forall x : f64, is_finite x = true -> Rabs (B2R x) <= 4366 / 100 ->
  exists r, ApprExp64 x = Ok r /\ is_finite r = true /\ Rabs (B2R r - exp (B2R x)) <= 4 / 1000000 * exp (B2R x).
Proof.
  intros x Fx Hx. destruct (exp64_gen x Fx ltac:(lra)) as (s & r & E & F & A & (S & _)). exists r.
  rewrite (S Hx), Rmult_1_l in A. auto.
Qed.
Print Assumptions C103_double.
Theorem C103_float : forall x : f32, is_finite x = true -> Rabs (B2R x) <= 4366 / 100 ->
  exists r, ApprExp32 x = Ok r /\ is_finite r = true /\ Rabs (B2R r - exp (B2R x)) <= 9 / 1000000 * exp (B2R x).
Proof.
  intros x Fx Hx. destruct (exp32_gen x Fx ltac:(lra)) as (s & r & E & F & A & (S & _)). exists r.
  rewrite (S Hx), Rmult_1_l in A. auto.
Qed.
Print Assumptions C103_float.
Example C103_ex : is_finite two64 = true /\ Rabs (B2R two64) <= 4366 / 100
  /\ match ApprExp64 two64 with Ok r => B2SF r = SpecFloat.S754_finite false 8319357742686394 (-50) | _ => False end.
Proof. rewrite two64_value. split; [reflexivity|]. split; [apply Rabs_le; lra|]. vm_compute. reflexivity. Qed.

(** ** C104: from 43.67 the exponential is negative, from 44.4 undefined *)
Theorem C104_negative_refuted : forall x : f64, is_finite x = true -> 4367 / 100 <= Rabs (B2R x) <= 4436 / 100 ->
  exists r, ApprExp64 x = Ok r /\ is_finite r = true /\ B2R r < 0.
Proof.
  intros x Fx Hx. destruct (exp64_gen x Fx ltac:(lra)) as (s & r & E & F & A & (_ & S)). exists r. repeat split; auto.
  rewrite (S (proj1 Hx)) in A. apply Rabs_le_inv in A. assert (P := exp_pos (B2R x)). lra.
Qed.
Print Assumptions C104_negative_refuted.
Theorem C104_negative_float_refuted : forall x : f32, is_finite x = true -> 4367 / 100 <= Rabs (B2R x) <= 4436 / 100 ->
  exists r, ApprExp32 x = Ok r /\ is_finite r = true /\ B2R r < 0.
Proof.
  intros x Fx Hx. destruct (exp32_gen x Fx ltac:(lra)) as (s & r & E & F & A & (_ & S)). exists r. repeat split; auto.
  rewrite (S (proj1 Hx)) in A. apply Rabs_le_inv in A. assert (P := exp_pos (B2R x)). lra.
Qed.
Print Assumptions C104_negative_float_refuted.
Theorem C104_undefined_refuted : forall x : f64, (is_finite x = true -> 444 / 10 <= Rabs (B2R x)) -> ApprExp64 x = UB.
Proof.
  intros x H. destruct (is_finite x) eqn:F; [apply exp64_ub; auto|now apply exp64_nonfinite].
Qed.
Print Assumptions C104_undefined_refuted.
Theorem C104_undefined_float_refuted : forall x : f32, (is_finite x = true -> 444 / 10 <= Rabs (B2R x)) -> ApprExp32 x = UB.
Proof.
  intros x H. destruct (is_finite x) eqn:F; [apply exp32_ub; auto|now apply exp32_nonfinite].
Qed.
Print Assumptions C104_undefined_float_refuted.
Example C104_ex : match ApprExp64 (lit64 44 0) with Ok r => B2SF r = SpecFloat.S754_finite true 6275204976265793 11 | _ => False end
  /\ ApprExp64 (lit64 (-45) 0) = UB.
Proof. split; vm_compute; reflexivity. Qed.

(** ** C105: the power with a positive base, while it and its error fit *)
Theorem C105_power : forall a b : f32, is_finite a = true -> bpow radix2 (-126) <= B2R a -> is_finite b = true ->
  Rabs (B2R b * ln (B2R a)) + Rabs (B2R b) / 1000 <= 86 ->
  exists r, ApprPow a b = Ok r /\ is_finite r = true /\ 0 < B2R r
  /\ Rabs (ln (B2R r) - B2R b * ln (B2R a)) <= 49 / 100000 * Rabs (B2R b) + 3 / 10000.
Proof. exact pow_ok. Qed.
Print Assumptions C105_power.
(** In ordinary terms, for exponents up to 10. *)
Theorem C105_relative : forall a b : f32, is_finite a = true -> bpow radix2 (-126) <= B2R a -> is_finite b = true ->
  Rabs (B2R b) <= 10 -> Rabs (B2R b * ln (B2R a)) <= 85 ->
  exists r, ApprPow a b = Ok r /\ is_finite r = true
  /\ Rabs (B2R r - Rpower (B2R a) (B2R b)) <= 6 / 1000 * Rpower (B2R a) (B2R b).
Proof.
  intros a b Fa Ha Fb Hb H. destruct (pow_ok a b Fa Ha Fb ltac:(lra)) as (r & E & F & P & A). exists r. split; [exact E|]. split; [exact F|].
  unfold Rpower. set (w := B2R b * ln (B2R a)) in *. set (d := ln (B2R r) - w) in *.
  assert (Er : B2R r = exp w * exp d) by (rewrite <- exp_plus; unfold d; replace (w + (ln (B2R r) - w)) with (ln (B2R r)) by ring; now rewrite exp_ln).
  rewrite Er. assert (Pw := exp_pos w). replace (exp w * exp d - exp w) with ((exp d - 1) * exp w) by ring.
  rewrite Rabs_mult, (Rabs_pos_eq (exp w)) by lra. apply Rmult_le_compat_r; [lra|].
  assert (D : Rabs d <= 52 / 10000) by lra. clear - D. apply Rabs_le_inv in D.
  assert (X := exp_ineq1_le d). assert (Y := exp_ineq1_le (- d)).
  assert (Q : exp d * exp (- d) = 1) by (rewrite <- exp_plus, Rplus_opp_r; apply exp_0).
  assert (Pd := exp_pos d). apply Rabs_le. split; [lra|].
  assert (U : exp d * (1 - d) <= 1) by (rewrite <- Q; apply Rmult_le_compat_l; lra).
  assert (V : exp d * (9948 / 10000) <= 1) by (eapply Rle_trans; [|exact U]; apply Rmult_le_compat_l; lra). lra.
Qed.
Print Assumptions C105_relative.
(** No power is exactly 1, not even with exponent 0. *)
Theorem C105_one_refuted : forall a : f32, is_finite a = true -> bpow radix2 (-126) <= B2R a ->
  exists r, ApprPow a (B754_zero false) = Ok r /\ B2R r <> 1.
Proof.
  intros a Fa Ha. destruct (pow_zero_exponent a (proj1 (ln32_ok a Fa Ha))) as (r & E & V). exists r. split; [exact E|]. rewrite V. lra.
Qed.
Print Assumptions C105_one_refuted.
Example C105_ex : is_finite two32 = true /\ bpow radix2 (-126) <= B2R two32 /\ Rabs (B2R two32) <= 10 /\ Rabs (B2R two32 * ln (B2R two32)) <= 85
  /\ match ApprPow two32 two32 with Ok r => B2SF r = SpecFloat.S754_finite false 8395709 (-21) | _ => False end.
Proof.
  rewrite two32_value. assert (L := ln2_r). split; [reflexivity|]. split; [exact small_two32|].
  split; [apply Rabs_le; lra|]. split; [apply Rabs_le; lra|]. vm_compute. reflexivity.
Qed.

(** ** C106: powers that do not fit *)
Theorem C106_undefined_refuted : forall a b : f32, is_finite a = true -> bpow radix2 (-126) <= B2R a -> is_finite b = true -> Rabs (B2R b) <= 1000000 ->
  268 + Rabs (B2R b) / 1000 <= B2R b * ln (B2R a) \/ B2R b * ln (B2R a) <= - (89 + Rabs (B2R b) / 1000) -> ApprPow a b = UB.
Proof.
  intros a b Fa Ha Fb Hb H. destruct (near a b Fa Ha Fb) as (Fl & Rl & D). apply Rabs_le_inv in D. unfold ApprPow.
  destruct H as [H|H]; [apply core_big|apply core_small]; auto; lra.
Qed.
Print Assumptions C106_undefined_refuted.
Theorem C106_wraps_refuted : forall a b : f32, is_finite a = true -> bpow radix2 (-126) <= B2R a -> is_finite b = true -> Rabs (B2R b) <= 1000000 ->
  90 + Rabs (B2R b) / 1000 <= B2R b * ln (B2R a) <= 266 - Rabs (B2R b) / 1000 ->
  exists r, ApprPow a b = Ok r /\ Bltb (B754_zero false) r = false.
Proof.
  intros a b Fa Ha Fb Hb H. destruct (near a b Fa Ha Fb) as (Fl & Rl & D). apply Rabs_le_inv in D. unfold ApprPow.
  apply core_wrap; auto; lra.
Qed.
Print Assumptions C106_wraps_refuted.
Example C106_ex : match ApprPow two32 (f32_of_int 200) with Ok r => B2SF r = SpecFloat.S754_finite true 9186625 (-79) | _ => False end
  /\ ApprPow two32 (f32_of_int (-200)) = UB /\ ApprPow two32 (f32_of_int 400) = UB.
Proof. split; [|split]; vm_compute; reflexivity. Qed.

(** ** C107: bases that are not positive *)
Theorem C107_sign_refuted : forall a b : f32, ApprPow (Bopp a) b = ApprPow a b.
Proof. exact pow_opp. Qed.
Print Assumptions C107_sign_refuted.
(** So every odd power of a negative number is positive. *)
Theorem C107_odd_refuted : forall a b : f32, is_finite a = true -> B2R a <= - bpow radix2 (-126) -> is_finite b = true ->
  Rabs (B2R b * ln (- B2R a)) + Rabs (B2R b) / 1000 <= 86 -> exists r, ApprPow a b = Ok r /\ is_finite r = true /\ 0 < B2R r.
Proof.
  intros a b Fa Ha Fb H. rewrite <- (pow_opp a).
  destruct (pow_ok (Bopp a) b) as (r & E & F & P & _); [now rewrite is_finite_Bopp|rewrite B2R_Bopp; lra|exact Fb|rewrite B2R_Bopp; exact H|].
  exists r. auto.
Qed.
Print Assumptions C107_odd_refuted.
Theorem C107_zero_refuted : forall b : f32, is_finite b = true ->
  (0 < B2R b <= 98 / 100 -> exists r, ApprPow (B754_zero false) b = Ok r /\ is_finite r = true /\ 0 < B2R r)
  /\ (101 / 100 <= B2R b <= 1000000 -> ApprPow (B754_zero false) b = UB).
Proof. intros b Fb. split; [now apply pow_zero_base|now apply pow_zero_base_ub]. Qed.
Print Assumptions C107_zero_refuted.
Example C107_ex : match ApprPow (Bopp two32) (f32_of_int 3) with Ok r => B2SF r = SpecFloat.S754_finite false 8401394 (-20) | _ => False end
  /\ match ApprPow (B754_zero false) (lit32 5 1) with Ok r => B2SF r <> SpecFloat.S754_zero false | _ => False end
  /\ ApprPow (B754_zero false) two32 = UB.
Proof. split; [vm_compute; reflexivity|]. split; [vm_compute; discriminate|vm_compute; reflexivity]. Qed.

(** ** C108: Expo takes the exponential of the argument brought between the limits,
    whichever limit is larger *)
Theorem C108_clamped : forall (exp : f32 -> f32) x upper lower, is_finite x = true -> is_finite upper = true -> is_finite lower = true ->
  exists y, Expo exp x upper lower = exp y /\ (y = x \/ y = upper \/ y = lower) /\ is_finite y = true
  /\ B2R y = Rmin (B2R upper) (Rmax (B2R lower) (B2R x)).
Proof.
  intros exp x upper lower Fx Fu Fl. unfold Expo. cbv zeta. rewrite (Bltb_correct _ _ x lower) by assumption.
  destruct (Rlt_bool_spec (B2R x) (B2R lower)) as [L|L].
  - rewrite Bltb_correct by assumption. rewrite (Rmax_left (B2R lower)) by lra. destruct (Rlt_bool_spec (B2R upper) (B2R lower)) as [U|U].
    + exists upper. rewrite Rmin_left by lra. auto 6.
    + exists lower. rewrite Rmin_right by lra. auto 6.
  - rewrite Bltb_correct by assumption. rewrite (Rmax_right (B2R lower)) by lra. destruct (Rlt_bool_spec (B2R upper) (B2R x)) as [U|U].
    + exists upper. rewrite Rmin_left by lra. auto 6.
    + exists x. rewrite Rmin_right by lra. auto 6.
Qed.
Print Assumptions C108_clamped.
(** With limits that are ordered, the exponential is only ever taken between them,
    also of infinities. *)
Theorem C108_infinite : forall (exp : f32 -> f32) upper lower, is_finite upper = true -> is_finite lower = true -> B2R lower <= B2R upper ->
  Expo exp (B754_infinity false) upper lower = exp upper /\ Expo exp (B754_infinity true) upper lower = exp lower.
Proof.
  intros exp upper lower Fu Fl H. unfold Expo. split.
  - assert (E : Bltb (B754_infinity false) lower = false) by (destruct lower; try discriminate; reflexivity).
    assert (E2 : Bltb upper (B754_infinity false) = true) by (destruct upper as [s|s| |s m e Hb]; try discriminate; try destruct s; reflexivity). rewrite E, E2. reflexivity.
  - assert (E : Bltb (B754_infinity true) lower = true) by (destruct lower as [s|s| |s m e Hb]; try discriminate; try destruct s; reflexivity).
    rewrite E, Bltb_correct by assumption. destruct (Rlt_bool_spec (B2R upper) (B2R lower)); [lra|reflexivity].
Qed.
Print Assumptions C108_infinite.
(** NaN is passed through. *)
Theorem C108_nan : forall (exp : f32 -> f32) upper lower, Expo exp B754_nan upper lower = exp B754_nan.
Proof.
  intros exp upper lower. unfold Expo. assert (E : Bltb B754_nan lower = false) by reflexivity. rewrite E.
  assert (E2 : Bltb upper B754_nan = false) by (destruct upper as [s|s| |s m e Hb]; try destruct s; reflexivity). rewrite E2. reflexivity.
Qed.
Print Assumptions C108_nan.
Example C108_ex : Expo (fun y => y) (f32_of_int 25) (f32_of_int 20) (f32_of_int (-20)) = f32_of_int 20
  /\ Expo (fun y => y) (f32_of_int (-25)) (f32_of_int 20) (f32_of_int (-20)) = f32_of_int (-20)
  /\ Expo (fun y => y) (f32_of_int 3) (f32_of_int 20) (f32_of_int (-20)) = f32_of_int 3.
Proof. split; [|split]; apply B2SF_inj; vm_compute; reflexivity. Qed.

(** ** C109: Power is odd in its base, so even powers of negative numbers are
    negative; [pow] is any function positive on positive bases *)
Theorem C109_positive : forall (pow : f32 -> f32 -> f32) a n, is_finite a = true -> 0 <= B2R a -> Power pow a n = pow a n.
Proof.
  intros pow a n Fa H. unfold Power. rewrite Bleb_correct by (reflexivity || assumption). change (B2R (B754_zero false : f32)) with 0.
  destruct (Rle_bool_spec 0 (B2R a)); [reflexivity|lra].
Qed.
Print Assumptions C109_positive.
Theorem C109_odd : forall (pow : f32 -> f32 -> f32) a n, is_finite a = true -> B2R a <> 0 -> Power pow (Bopp a) n = Bopp (Power pow a n).
Proof.
  intros pow a n Fa H. assert (Fo : is_finite (Bopp a) = true) by now rewrite is_finite_Bopp.
  unfold Power. rewrite !Bleb_correct by (reflexivity || assumption). change (B2R (B754_zero false : f32)) with 0. rewrite B2R_Bopp.
  destruct (Rle_bool_spec 0 (B2R a)); destruct (Rle_bool_spec 0 (- B2R a)); try lra; now rewrite Bopp_involutive.
Qed.
Print Assumptions C109_odd.
Theorem C109_even_refuted : forall (pow : f32 -> f32 -> f32) a n, (forall x m, 0 < B2R x -> 0 < B2R (pow x m)) ->
  is_finite a = true -> B2R a < 0 -> B2R (Power pow a n) < 0.
Proof.
  intros pow a n Pp Fa H. unfold Power. rewrite Bleb_correct by (reflexivity || assumption). change (B2R (B754_zero false : f32)) with 0.
  destruct (Rle_bool_spec 0 (B2R a)); [lra|]. rewrite B2R_Bopp. assert (0 < B2R (pow (Bopp a) n)) by (apply Pp; rewrite B2R_Bopp; lra). lra.
Qed.
Print Assumptions C109_even_refuted.
Example C109_ex : B2R (Power (fun x _ => x) (Bopp two32) two32) < 0.
Proof. apply C109_even_refuted; [auto|reflexivity|]. rewrite B2R_Bopp, two32_value. lra. Qed.
