(** Property theorems about the default NoData values (C68). *)
From Coq Require Import ZArith Reals Bool Lia Lra.
From Flocq Require Import Core BinarySingleNaN.
From Verif Require Import Base BasicModel FloatModel FloatProofs TypeModel.
Open Scope Z_scope.

(** ** C68 *)
(** Every integer type but UINT64: the default is an end of the type's range, it
    converts to the type, and the converted value is recognised as NoData when
    compared as double again; no other value of the type up to 32 bits is. *)
Theorem C68_integer_types : forall (t : rdt) (lo hi : Z), int_range t = Some (lo, hi) -> t <> RDT_UInt64 ->
  exists z, cast_int lo hi (DefaultNoDataByType t) = Ok z /\ z = (if lo =? 0 then hi else lo) /\
    FloatEqual (of_int z) (DefaultNoDataByType t) = true /\
    (forall y, lo <= y <= hi -> t <> RDT_Int64 -> (FloatEqual (of_int y) (DefaultNoDataByType t) = true <-> y = z)).
Proof.
  intros t lo hi H Hn.
  assert (K : forall y z, Z.abs y <= 2 ^ 53 -> Z.abs z <= 2 ^ 53 -> (FloatEqual (of_int y) (of_int z) = true <-> y = z)).
  { intros y z Hy Hz. rewrite FloatEqual_int by assumption. apply Z.eqb_eq. }
  destruct t; cbn in H; try discriminate H; try congruence; injection H as <- <-; cbn [Z.eqb];
  (eexists; split; [vm_compute; reflexivity|]; split; [reflexivity|]; split; [vm_compute; reflexivity|]);
  intros y Hy Ht; try congruence; cbn [DefaultNoDataByType]; apply K; lia.
Qed.
Print Assumptions C68_integer_types.

(** Floating types: minus the largest float, finite and a binary32 value. *)
Theorem C68_float_types : forall t, t = RDT_Float \/ t = RDT_Double ->
  is_finite (DefaultNoDataByType t) = true /\
  B2R (DefaultNoDataByType t) = (- (IZR (2 ^ 24 - 1) * bpow radix2 104))%R.
Proof.
  assert (X : is_finite MISSINGFLOAT = true /\ B2R MISSINGFLOAT = (- (IZR (2 ^ 24 - 1) * bpow radix2 104))%R).
  { split; [vm_compute; reflexivity|].
    unfold MISSINGFLOAT. rewrite B2R_Bopp. f_equal.
    pose proof (binary_normalize_correct 53 1024 prec_gt_0_53 prec_lt_53 mode_NE (2 ^ 24 - 1) 104 false) as N.
    cbv zeta in N.
    assert (G : generic_format radix2 (SpecFloat.fexp 53 1024) (F2R (Float radix2 (2 ^ 24 - 1) 104))).
    { apply generic_format_F2R. intros _. unfold cexp.
      rewrite (mag_F2R_Zdigits radix2 (2 ^ 24 - 1) 104) by lia.
      change (Zdigits radix2 (2 ^ 24 - 1)) with 24. unfold SpecFloat.fexp, SpecFloat.emin. lia. }
    rewrite (round_generic radix2 _ _ _ G) in N.
    rewrite Rlt_bool_true in N.
    - destruct N as [N _]. rewrite N. reflexivity.
    - rewrite <- F2R_Zabs. apply Rlt_le_trans with (IZR (2 ^ 24) * bpow radix2 104)%R.
      + unfold F2R. cbn [Fnum Fexp]. apply Rmult_lt_compat_r; [apply bpow_gt_0|]. apply IZR_lt. lia.
      + change (IZR (2 ^ 24)) with (bpow radix2 24). rewrite <- bpow_plus. apply bpow_le. lia. }
  intros t [-> | ->]; exact X.
Qed.
Print Assumptions C68_float_types.

(** UINT64: the default rounds to 2^64, which is no value of the type; setting
    up such a raster is undefined. *)
Theorem C68_uint64_refuted :
  cast_int 0 18446744073709551615 (DefaultNoDataByType RDT_UInt64) = UB /\
  int_range RDT_UInt64 = Some (0, 18446744073709551615).
Proof. vm_compute. auto. Qed.
Print Assumptions C68_uint64_refuted.

(** INT64: NoData is recognised, and so are values that are not it. *)
Theorem C68_int64_refuted : exists y, -9223372036854775808 < y <= 9223372036854775807 /\
  FloatEqual (of_int y) (DefaultNoDataByType RDT_Int64) = true.
Proof. exists (-9223372036854775807). split; [lia|]. vm_compute. reflexivity. Qed.
Print Assumptions C68_int64_refuted.

Example C68_ex : int_range RDT_UInt8 = Some (0, 255) /\ cast_int 0 255 (DefaultNoDataByType RDT_UInt8) = Ok 255.
Proof. vm_compute. auto. Qed.
