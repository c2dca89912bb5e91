(** Bit patterns of normal numbers. *)
From Coq Require Import ZArith Reals Lra Lia Bool Psatz.
From Flocq Require Import Core BinarySingleNaN Bits.
From Flocq Require Binary.
From Verif Require Import Base FloatModel MongoModel CellModel FastModel FastRound.
Open Scope Z_scope.

Section Fields.
Variables mw ew : Z.
Variable Hmw : 0 < mw.
Variable Hew : 0 < ew.
Notation prec := (mw + 1).
Notation emax := (2 ^ (ew - 1)).
Variable Hmax : prec < emax.
Notation emin := (3 - emax - prec).
Variable nan : {x : Binary.binary_float prec emax | Binary.is_nan prec emax x = true}.

(** The number with exponent field E and fraction field M. *)
Definition field_value (E M : Z) : R := (IZR (2 ^ mw + M) * bpow radix2 (E + emin - 1))%R.

Lemma of_bits_normal : forall E M, 0 < E < 2 ^ ew - 1 -> 0 <= M < 2 ^ mw ->
  let x := Binary.B2BSN prec emax (binary_float_of_bits mw ew Hmw Hew Hmax (E * 2 ^ mw + M)) in
  B2R x = field_value E M /\ is_finite x = true.
Proof.
  intros E M HE HM. cbv zeta.
  rewrite Binary.B2R_B2BSN, Binary.is_finite_B2BSN. unfold binary_float_of_bits.
  rewrite Binary.B2R_FF2B, Binary.is_finite_FF2B. unfold binary_float_of_bits_aux, split_bits.
  assert (P : 0 < 2 ^ mw) by (apply Z.pow_pos_nonneg; lia).
  assert (E1 : (E * 2 ^ mw + M) mod 2 ^ mw = M) by (rewrite Z.add_comm, Z.mod_add by lia; apply Z.mod_small; lia).
  assert (E2 : (E * 2 ^ mw + M) / 2 ^ mw = E) by (rewrite Z.div_add_l by lia; rewrite Z.div_small by lia; lia).
  assert (E3 : E mod 2 ^ ew = E) by (apply Z.mod_small; lia).
  assert (E4 : (2 ^ mw * 2 ^ ew <=? E * 2 ^ mw + M) = false) by (apply Z.leb_gt; nia).
  rewrite E1, E2, E3, E4.
  replace (Zeq_bool E 0) with false by (symmetry; apply Zeq_bool_false; lia).
  replace (Zeq_bool E (2 ^ ew - 1)) with false by (symmetry; apply Zeq_bool_false; lia).
  destruct (M + 2 ^ mw) as [|p|p] eqn:Q; [lia| |lia]. split; [|reflexivity].
  cbn [Binary.FF2R]. unfold field_value, F2R. cbn [Fnum Fexp SpecFloat.cond_Zopp]. rewrite <- Q.
  unfold SpecFloat.emin. f_equal. f_equal. lia.
Qed.

Lemma bits_normal : forall x : binary_float prec emax, is_finite x = true ->
  (least emax <= B2R x)%R ->
  exists E M, 0 < E < 2 ^ ew - 1 /\ 0 <= M < 2 ^ mw
    /\ bits_of_binary_float mw ew (Binary.BSN2B prec emax nan x) = E * 2 ^ mw + M
    /\ B2R x = field_value E M.
Proof.
  intros x F L.
  assert (PL : (0 < least emax)%R) by apply bpow_gt_0.
  destruct x as [s|s| |s m e Hb]; try discriminate; [cbn in L; lra|].
  destruct s.
  { exfalso. cbn [B2R SpecFloat.cond_Zopp] in L.
    assert (B : (F2R (Float radix2 (Z.neg m) e) < 0)%R) by (apply F2R_lt_0; cbn; lia). cbn in *. lra. }
  assert (Hb' := Hb). unfold SpecFloat.bounded in Hb'. apply andb_true_iff in Hb'. destruct Hb' as (Hc & Hl).
  apply Zle_bool_imp_le in Hl.
  assert (C := canonical_canonical_mantissa prec emax false m e Hc).
  assert (V : B2R (B754_finite false m e Hb) = (IZR (Zpos m) * bpow radix2 e)%R) by reflexivity.
  set (v := B2R (B754_finite false m e Hb)) in *.
  assert (Pv : (0 < v)%R) by lra.
  unfold canonical, cexp in C. cbn [Fexp SpecFloat.cond_Zopp] in C.
  change (F2R (Float radix2 (Zpos m) e)) with v in C.
  assert (G : (bpow radix2 (mag radix2 v - 1) <= v < bpow radix2 (mag radix2 v))%R).
  { clear - Pv. destruct (mag radix2 v) as (k & Hk). cbn [mag_val]. specialize (Hk ltac:(lra)). rewrite Rabs_pos_eq in Hk by lra. exact Hk. }
  set (g := mag_val radix2 v (mag radix2 v)) in *. clearbody g.
  assert (G2 : emin + prec <= g).
  { assert (A : (bpow radix2 (2 - emax) < bpow radix2 g)%R) by (unfold least in L; lra).
    apply lt_bpow in A. lia. }
  assert (Ee : e = g - prec).
  { rewrite C. unfold SpecFloat.fexp. change (SpecFloat.emin prec emax) with emin. lia. }
  assert (ML : (2 ^ mw <= Zpos m < 2 ^ (mw + 1))).
  { rewrite V in G. rewrite Ee in G.
    replace (bpow radix2 (g - 1)) with (bpow radix2 mw * bpow radix2 (g - prec))%R in G by (rewrite <- bpow_plus; f_equal; lia).
    replace (bpow radix2 g) with (bpow radix2 (mw + 1) * bpow radix2 (g - prec))%R in G by (rewrite <- bpow_plus; f_equal; lia).
    assert (PB : (0 < bpow radix2 (g - prec))%R) by apply bpow_gt_0.
    rewrite <- (IZR_Zpower radix2 mw) in G by lia. rewrite <- (IZR_Zpower radix2 (mw + 1)) in G by lia. destruct G as (Ga & Gb).
    apply Rmult_le_reg_r in Ga; [|exact PB]. apply Rmult_lt_reg_r in Gb; [|exact PB].
    apply le_IZR in Ga. apply lt_IZR in Gb. split; [exact Ga|exact Gb]. }
  assert (PW : 2 ^ ew = 2 * emax).
  { replace ew with (1 + (ew - 1)) at 1 by lia. rewrite Z.pow_add_r by lia. reflexivity. }
  exists (e - emin + 1), (Zpos m - 2 ^ mw).
  split; [lia|]. split; [rewrite Z.pow_add_r in ML by lia; lia|]. split.
  - cbn [Binary.BSN2B bits_of_binary_float].
    replace (0 <=? Z.pos m - 2 ^ mw) with true by (symmetry; apply Z.leb_le; lia).
    unfold join_bits. rewrite Z.shiftl_mul_pow2 by lia. change (SpecFloat.emin prec emax) with emin. lia.
  - rewrite V. unfold field_value. f_equal; f_equal; lia.
Qed.
End Fields.

(** The same for [float] and [double]. *)
Lemma of_bits32_normal : forall E M, 0 < E < 255 -> 0 <= M < 2 ^ 23 ->
  B2R (of_bits32 (E * 2 ^ 23 + M)) = (IZR (2 ^ 23 + M) * bpow radix2 (E - 150))%R
  /\ is_finite (of_bits32 (E * 2 ^ 23 + M)) = true.
Proof.
  intros E M HE HM. destruct (of_bits_normal 23 8 eq_refl eq_refl eq_refl E M HE HM) as (A & B).
  split; [|exact B]. unfold of_bits32. etransitivity; [exact A|]. unfold field_value. f_equal. f_equal.
  change (2 ^ (8 - 1)) with 128. lia.
Qed.

Lemma of_bits64_normal : forall E M, 0 < E < 2047 -> 0 <= M < 2 ^ 52 ->
  B2R (of_bits64 (E * 2 ^ 52 + M)) = (IZR (2 ^ 52 + M) * bpow radix2 (E - 1075))%R
  /\ is_finite (of_bits64 (E * 2 ^ 52 + M)) = true.
Proof.
  intros E M HE HM. destruct (of_bits_normal 52 11 eq_refl eq_refl eq_refl E M HE HM) as (A & B).
  split; [|exact B]. unfold of_bits64. etransitivity; [exact A|]. unfold field_value. f_equal. f_equal.
  change (2 ^ (11 - 1)) with 1024. lia.
Qed.

Lemma bits32_normal : forall x : f32, is_finite x = true -> (bpow radix2 (-126) <= B2R x)%R ->
  exists E M, 0 < E < 255 /\ 0 <= M < 2 ^ 23 /\ bits32 x = E * 2 ^ 23 + M
    /\ B2R x = (IZR (2 ^ 23 + M) * bpow radix2 (E - 150))%R.
Proof.
  intros x F L. destruct (bits_normal 23 8 eq_refl eq_refl nan32 x F L) as (E & M & HE & HM & Hb & V).
  exists E, M. repeat split; try (first [apply HE|apply HM]); [exact Hb|].
  etransitivity; [exact V|]. unfold field_value. f_equal. f_equal. change (2 ^ (8 - 1)) with 128. lia.
Qed.

Lemma bits64_normal : forall x : f64, is_finite x = true -> (bpow radix2 (-1022) <= B2R x)%R ->
  exists E M, 0 < E < 2047 /\ 0 <= M < 2 ^ 52 /\ bits64 x = E * 2 ^ 52 + M
    /\ B2R x = (IZR (2 ^ 52 + M) * bpow radix2 (E - 1075))%R.
Proof.
  intros x F L. destruct (bits_normal 52 11 eq_refl eq_refl nan64 x F L) as (E & M & HE & HM & Hb & V).
  exists E, M. repeat split; try (first [apply HE|apply HM]); [exact Hb|].
  etransitivity; [exact V|]. unfold field_value. f_equal. f_equal. change (2 ^ (11 - 1)) with 1024. lia.
Qed.
