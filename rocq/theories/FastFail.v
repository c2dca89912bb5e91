(** Outside their ranges: the fast logarithm, root and power. *)
From Coq Require Import ZArith Reals Lra Lia Bool Psatz List.
From Flocq Require Import Core BinarySingleNaN Bits.
From Flocq Require Binary.
From Verif Require Import Base FloatModel TypeModel MongoModel CellModel CellProofs2 FastModel FastTable FastReal FastRound FastBits FastSqrt FastLn FastLn2 FastExp2 FastExp3 FastPow FastPow2 FastPow3.
Open Scope R_scope.
Open Scope outcome_scope.

Section Opp.
Variables mw ew : Z.
Variable Hmw : (0 < mw)%Z.
Variable Hew : (0 < ew)%Z.
Notation prec := (mw + 1)%Z.
Notation emax := (2 ^ (ew - 1))%Z.
Variable nan : {x : Binary.binary_float prec emax | Binary.is_nan prec emax x = true}.
Notation bits x := (bits_of_binary_float mw ew (Binary.BSN2B prec emax nan x)).

Lemma bits_opp : forall x : binary_float prec emax, exists c : Z, (bits (Bopp x) = bits x + c * (2 ^ (mw + ew)))%Z.
Proof using Hmw Hew.
  intros [s|s| |s m e H].
  - exists (if s then -1 else 1)%Z. destruct s; cbn [Bopp negb Binary.BSN2B bits_of_binary_float]; unfold join_bits; rewrite !Z.shiftl_mul_pow2, Z.pow_add_r by lia; ring.
  - exists (if s then -1 else 1)%Z. destruct s; cbn [Bopp negb Binary.BSN2B bits_of_binary_float]; unfold join_bits; rewrite !Z.shiftl_mul_pow2, Z.pow_add_r by lia; ring.
  - exists 0%Z. cbn [Bopp]. ring.
  - exists (if s then -1 else 1)%Z.
    destruct s; cbn [Bopp negb Binary.BSN2B bits_of_binary_float]; destruct (_ <=? _)%Z; unfold join_bits; rewrite !Z.shiftl_mul_pow2, Z.pow_add_r by lia; ring.
Qed.
End Opp.

Lemma same_fields : forall z c p q, (0 <= p)%Z -> (0 <= q)%Z ->
  ((z + c * 2 ^ (p + q)) mod 2 ^ p = z mod 2 ^ p)%Z /\ (((z + c * 2 ^ (p + q)) / 2 ^ p) mod 2 ^ q = (z / 2 ^ p) mod 2 ^ q)%Z.
Proof.
  intros z c p q Hp Hq. rewrite Z.pow_add_r by assumption.
  assert (P := Z.pow_pos_nonneg 2 p ltac:(lia) Hp). assert (Q := Z.pow_pos_nonneg 2 q ltac:(lia) Hq).
  replace (z + c * (2 ^ p * 2 ^ q))%Z with (z + c * 2 ^ q * 2 ^ p)%Z by ring.
  rewrite Z.mod_add, Z.div_add, Z.mod_add by lia. auto.
Qed.

Lemma ln64_opp : forall z : f64, ApprLn64 (Bopp z) = ApprLn64 z.
Proof.
  intros z. destruct (bits_opp 52 11 eq_refl eq_refl nan64 z) as (c & E).
  assert (E' : (bits64 (Bopp z) = bits64 z + c * 2 ^ (52 + 11))%Z) by exact E.
  destruct (same_fields (bits64 z) c 52 11 ltac:(lia) ltac:(lia)) as (A & B).
  unfold ApprLn64. cbv zeta. rewrite E', A, B. reflexivity.
Qed.
Lemma ln32_opp : forall z : f32, ApprLn32 (Bopp z) = ApprLn32 z.
Proof.
  intros z. destruct (bits_opp 23 8 eq_refl eq_refl nan32 z) as (c & E).
  assert (E' : (bits32 (Bopp z) = bits32 z + c * 2 ^ (23 + 8))%Z) by exact E.
  destruct (same_fields (bits32 z) c 23 8 ltac:(lia) ltac:(lia)) as (A & B).
  unfold ApprLn32. cbv zeta. rewrite E', A, B. reflexivity.
Qed.

(** Constants, by computation. *)
Lemma ln32_zero : is_finite (ApprLn32 (B754_zero false)) = true /\ B2R (ApprLn32 (B754_zero false)) = - (11538168 / 131072).
Proof.
  assert (H : ApprLn32 (B754_zero false) = neg32 11538168 (-17) eq_refl) by (apply B2SF_inj; vm_compute; reflexivity). rewrite H.
  split; [reflexivity|]. unfold neg32; cbn [B2R]; unfold F2R; cbn [Fnum Fexp SpecFloat.cond_Zopp Z.opp]. change (bpow radix2 (-17)) with (/ 131072). lra.
Qed.
Lemma ln64_zero : is_finite (ApprLn64 (B754_zero false)) = true /\ B2R (ApprLn64 (B754_zero false)) = - (6237213896591175 / 8796093022208).
Proof.
  assert (H : ApprLn64 (B754_zero false) = neg64 6237213896591175 (-43) eq_refl) by (apply B2SF_inj; vm_compute; reflexivity). rewrite H.
  split; [reflexivity|]. unfold neg64; cbn [B2R]; unfold F2R; cbn [Fnum Fexp SpecFloat.cond_Zopp Z.opp]. change (bpow radix2 (-43)) with (/ 8796093022208). lra.
Qed.
Lemma ln32_inf : is_finite (ApprLn32 (B754_infinity false)) = true /\ B2R (ApprLn32 (B754_infinity false)) = 11629140 / 131072.
Proof.
  assert (H : ApprLn32 (B754_infinity false) = num32 11629140 (-17) eq_refl) by (apply B2SF_inj; vm_compute; reflexivity). rewrite H.
  split; [reflexivity|]. unfold num32; cbn [B2R]; unfold F2R; cbn [Fnum Fexp SpecFloat.cond_Zopp Z.opp]. change (bpow radix2 (-17)) with (/ 131072). lra.
Qed.
Lemma ln64_inf : is_finite (ApprLn64 (B754_infinity false)) = true /\ B2R (ApprLn64 (B754_infinity false)) = 6243318652661257 / 8796093022208.
Proof.
  assert (H : ApprLn64 (B754_infinity false) = num64 6243318652661257 (-43) eq_refl) by (apply B2SF_inj; vm_compute; reflexivity). rewrite H.
  split; [reflexivity|]. unfold num64; cbn [B2R]; unfold F2R; cbn [Fnum Fexp SpecFloat.cond_Zopp Z.opp]. change (bpow radix2 (-43)) with (/ 8796093022208). lra.
Qed.
Lemma ln64_one : B2R (ApprLn64 (lit64 1 0)) = 8146378340054874 / 18446744073709551616.
Proof.
  assert (H : ApprLn64 (lit64 1 0) = num64 8146378340054874 (-64) eq_refl) by (apply B2SF_inj; vm_compute; reflexivity). rewrite H.
  unfold num64; cbn [B2R]; unfold F2R; cbn [Fnum Fexp SpecFloat.cond_Zopp Z.opp]. change (bpow radix2 (-64)) with (/ 18446744073709551616). lra.
Qed.

(** Power of zero, and power to zero. *)
Lemma pow_opp : forall a b, ApprPow (Bopp a) b = ApprPow a b.
Proof. intros a b. unfold ApprPow. now rewrite ln32_opp. Qed.

Lemma pow_zero_base : forall b : f32, is_finite b = true -> 0 < B2R b <= 98 / 100 ->
  exists r, ApprPow (B754_zero false) b = Ok r /\ is_finite r = true /\ 0 < B2R r.
Proof.
  intros b Fb Hb. destruct ln32_zero as (F & V). unfold ApprPow.
  destruct (core b (ApprLn32 (B754_zero false)) Fb F) as (r & R1 & R2 & R3 & _).
  - apply Rabs_le. lra.
  - rewrite V. apply Rabs_le. lra.
  - rewrite V. apply Rabs_le. lra.
  - exists r. auto.
Qed.
Lemma pow_zero_base_ub : forall b : f32, is_finite b = true -> 101 / 100 <= B2R b <= 1000000 -> ApprPow (B754_zero false) b = UB.
Proof.
  intros b Fb Hb. destruct ln32_zero as (F & V). unfold ApprPow. apply core_small; auto.
  - apply Rabs_le. lra.
  - rewrite V. apply Rabs_le. lra.
  - rewrite V. lra.
Qed.

Lemma pow_zero_exponent : forall a : f32, is_finite (ApprLn32 a) = true ->
  exists r, ApprPow a (B754_zero false) = Ok r /\ B2R r = 8390028 / 8388608.
Proof.
  intros a F. unfold ApprPow, pow_lookup.
  assert (E : mul32 (mul32 (mul32 (B754_zero false) M_2POW23) (ApprLn32 a)) (f32_of_f64 M_LOG2E) = B754_zero (Bsign (ApprLn32 a))).
  { assert (E1 : mul32 (B754_zero false) M_2POW23 = B754_zero false) by (apply B2SF_inj; vm_compute; reflexivity). rewrite E1.
    assert (E2 : mul32 (B754_zero false) (ApprLn32 a) = B754_zero (Bsign (ApprLn32 a))).
    { destruct (ApprLn32 a) as [s|s| |s m e H]; try discriminate; destruct s; reflexivity. }
    rewrite E2. destruct (Bsign (ApprLn32 a)); apply B2SF_inj; vm_compute; reflexivity. }
  rewrite E.
  assert (E3 : forall s, add32 (B754_zero s) (mul32 (f32_of_int 127) M_2POW23) = num32 16646144 6 eq_refl).
  { intros s. destruct s; apply B2SF_inj; vm_compute; reflexivity. }
  rewrite E3.
  assert (E4 : to_uint32 (num32 16646144 6 eq_refl) = Ok (127 * 2 ^ 23)%Z) by (vm_compute; reflexivity).
  rewrite E4. cbn [obind].
  assert (E5 : aget pow_mantissa_table ((127 * 2 ^ 23) mod 2 ^ 23 / 2 ^ (23 - 11))%Z = Ok 1420%Z) by (vm_compute; reflexivity).
  rewrite E5. cbn [obind]. eexists. split; [reflexivity|].
  assert (E6 : of_bits32 (Z.lor (127 * 2 ^ 23 / 2 ^ 23 * 2 ^ 23) 1420) = num32 8390028 (-23) eq_refl) by (apply B2SF_inj; vm_compute; reflexivity).
  rewrite E6. unfold num32; cbn [B2R]; unfold F2R; cbn [Fnum Fexp SpecFloat.cond_Zopp]. change (bpow radix2 (-23)) with (/ 8388608). lra.
Qed.

(** The root outside normal numbers. *)
Lemma sqrt_zero : forall s, ApprSqrt64 (B754_zero s) = B754_zero s /\ ApprSqrt32 (B754_zero s) = B754_zero s.
Proof. intros [|]; split; apply B2SF_inj; vm_compute; reflexivity. Qed.
Lemma sqrt_inf : ApprSqrt64 (B754_infinity false) = B754_infinity true /\ ApprSqrt32 (B754_infinity false) = B754_infinity true.
Proof. split; apply B2SF_inj; vm_compute; reflexivity. Qed.
Lemma sqrt_minus_one : ApprSqrt64 (lit64 (-1) 0) = B754_infinity false /\ ApprSqrt32 (lit32 (-1) 0) = B754_infinity false.
Proof. split; apply B2SF_inj; vm_compute; reflexivity. Qed.
