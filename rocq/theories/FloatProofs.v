(** Lemmas about the floating point comparison. *)
From Coq Require Import ZArith Reals Bool Lia Lra Psatz.
From Flocq Require Import Core BinarySingleNaN.
From Verif Require Import FloatModel.
Open Scope R_scope.

Notation rnd := (round radix2 (FLT_exp (-1074) 53) ZnearestE).
Notation fmt := (generic_format radix2 (FLT_exp (-1074) 53)).

Local Instance p53 : Prec_gt_0 53 := prec_gt_0_53.

Lemma fmt_B2R (x : f64) : fmt (B2R x).
Proof. apply (generic_format_B2R 53 1024 x). Qed.

Lemma fin_TINY : is_finite TINY = true.
Proof. reflexivity. Qed.

Definition tiny : R := B2R TINY.

Lemma tiny_val : tiny = IZR 7307508186654515 * bpow radix2 (-159).
Proof. reflexivity. Qed.

Lemma tiny_pos : 0 < tiny < 1.
Proof.
  rewrite tiny_val. split; [apply Rmult_lt_0_compat; [lra|apply bpow_gt_0]|].
  apply Rlt_le_trans with (bpow radix2 53 * bpow radix2 (-159)).
  - apply Rmult_lt_compat_r; [apply bpow_gt_0|]. cbn. lra.
  - rewrite <- bpow_plus. apply (bpow_le radix2 _ 0). lia.
Qed.

Lemma rnd_0 : rnd 0 = 0.
Proof. apply round_0; typeclasses eauto. Qed.

(** What the subtraction gives. *)
Lemma fsub_cases a b : is_finite a = true -> is_finite b = true ->
  (B2R (fsub a b) = rnd (B2R a - B2R b) /\ is_finite (fsub a b) = true) \/
  ((exists s, fsub a b = B754_infinity s) /\ bpow radix2 1024 <= Rabs (rnd (B2R a - B2R b))).
Proof.
  intros Fa Fb. pose proof (Bminus_correct 53 1024 prec_gt_0_53 prec_lt_53 mode_NE a b Fa Fb) as H.
  change (round radix2 (SpecFloat.fexp 53 1024) (round_mode mode_NE)) with rnd in H.
  destruct (Rlt_bool_spec (Rabs (rnd (B2R a - B2R b))) (bpow radix2 1024)) as [L|L].
  - left. split; [apply H|apply H].
  - right. split; [|exact L]. destruct H as [H _]. fold (fsub a b) in H.
    destruct (fsub a b) as [s|s| |s m e h]; cbn in H; try discriminate H. eauto.
Qed.

Lemma fabs_fin x : is_finite x = true -> is_finite (fabs x) = true /\ B2R (fabs x) = Rabs (B2R x).
Proof.
  intros F. unfold fabs. rewrite Bleb_correct by auto. cbn [B2R f64_zero].
  destruct (Rle_bool_spec 0 (B2R x)) as [L|L].
  - split; auto. rewrite Rabs_pos_eq; auto.
  - rewrite is_finite_Bopp, B2R_Bopp. split; auto. rewrite Rabs_left; auto.
Qed.

Lemma FloatEqual_R a b : is_finite a = true -> is_finite b = true ->
  FloatEqual a b = Rlt_bool (Rabs (rnd (B2R a - B2R b))) tiny.
Proof.
  intros Fa Fb. unfold FloatEqual. destruct (fsub_cases a b Fa Fb) as [[E F]|[[s E] L]].
  - destruct (fabs_fin _ F) as [F2 E2]. rewrite Bltb_correct by auto. rewrite E2, E. reflexivity.
  - rewrite E. transitivity false; [destruct s; reflexivity|]. symmetry. apply Rlt_bool_false.
    apply Rle_trans with (bpow radix2 0); [change (bpow radix2 0) with 1; left; apply tiny_pos|]. apply Rle_trans with (2 := L). apply bpow_le. lia.
Qed.

Theorem FloatEqual_same a b : is_finite a = true -> is_finite b = true -> B2R a = B2R b -> FloatEqual a b = true.
Proof.
  intros Fa Fb E. rewrite FloatEqual_R by auto. rewrite E, Rminus_eq_0, rnd_0, Rabs_R0. apply Rlt_bool_true. apply tiny_pos.
Qed.

Theorem FloatEqual_close a b : is_finite a = true -> is_finite b = true -> FloatEqual a b = true -> Rabs (B2R a - B2R b) < tiny.
Proof.
  intros Fa Fb. rewrite FloatEqual_R by auto. intros H. destruct (Rlt_bool_spec (Rabs (rnd (B2R a - B2R b))) tiny) as [L|]; [clear H|discriminate].
  apply Rnot_le_lt. intros C. apply (Rlt_not_le _ _ L). apply abs_round_ge_generic; [typeclasses eauto|typeclasses eauto|apply fmt_B2R|exact C].
Qed.

Theorem FloatEqual_half a b : is_finite a = true -> is_finite b = true -> Rabs (B2R a - B2R b) <= / 2 * tiny -> FloatEqual a b = true.
Proof.
  intros Fa Fb H. rewrite FloatEqual_R by auto. apply Rlt_bool_true.
  apply Rle_lt_trans with (/ 2 * tiny); [|pose proof tiny_pos; lra].
  apply abs_round_le_generic; try typeclasses eauto; auto.
  rewrite tiny_val. replace (/ 2 * (IZR 7307508186654515 * bpow radix2 (-159))) with (IZR 7307508186654515 * bpow radix2 (-160)).
  - apply generic_format_FLT. exists (Float radix2 7307508186654515 (-160)); cbn; auto; lia.
  - replace (-159)%Z with (-160 + 1)%Z by lia. rewrite bpow_plus. change (bpow radix2 1) with 2. lra.
Qed.

(** Integers. *)
Lemma of_int_exact z : (Z.abs z <= 2 ^ 53)%Z -> is_finite (of_int z) = true /\ B2R (of_int z) = IZR z.
Proof.
  intros H. pose proof (binary_normalize_correct 53 1024 prec_gt_0_53 prec_lt_53 mode_NE z 0 false) as C. cbv zeta in C.
  change (round radix2 (SpecFloat.fexp 53 1024) (round_mode mode_NE)) with rnd in C.
  assert (E : F2R (Float radix2 z 0) = IZR z) by (unfold F2R; cbn; lra). rewrite E in C.
  assert (HF : fmt (IZR z)).
  { destruct (Z.eq_dec (Z.abs z) (2 ^ 53)) as [H2|H2].
    - assert (IZR z = IZR (Z.sgn z) * bpow radix2 53).
      { change (bpow radix2 53) with (IZR (2 ^ 53)). rewrite <- mult_IZR. f_equal. rewrite <- H2. lia. }
      rewrite H0. apply generic_format_FLT. exists (Float radix2 (Z.sgn z) 53); cbn; auto; [|lia].
      destruct z; cbn; lia.
    - apply generic_format_FLT. exists (Float radix2 z 0); [symmetry; exact E| |cbn; lia]. cbn [Fnum]. change (radix2 ^ 53)%Z with (2 ^ 53)%Z. lia. }
  rewrite (round_generic radix2 (FLT_exp (-1074) 53) ZnearestE _ HF) in C. rewrite Rlt_bool_true in C; [split; apply C|].
  rewrite <- abs_IZR. apply Rle_lt_trans with (IZR (2 ^ 53)); [apply IZR_le; auto|].
  change (IZR (2 ^ 53)) with (bpow radix2 53). apply bpow_lt. lia.
Qed.

Theorem FloatEqual_int x y : (Z.abs x <= 2 ^ 53)%Z -> (Z.abs y <= 2 ^ 53)%Z -> FloatEqual (of_int x) (of_int y) = (x =? y)%Z.
Proof.
  intros Hx Hy. destruct (of_int_exact x Hx) as [Fx Ex]. destruct (of_int_exact y Hy) as [Fy Ey].
  destruct (Z.eqb_spec x y) as [->|N].
  - apply FloatEqual_same; auto.
  - destruct (FloatEqual (of_int x) (of_int y)) eqn:E; auto. exfalso. apply FloatEqual_close in E; auto.
    rewrite Ex, Ey, <- minus_IZR, <- abs_IZR in E. assert (1 <= Z.abs (x - y))%Z by lia. apply IZR_le in H. pose proof tiny_pos. lra.
Qed.

(** Values on a common grid coarser than 1e-32: comparison is equality. *)
Theorem FloatEqual_grid (a b : f64) (e : Z) (x y : Z) : (-106 <= e)%Z -> is_finite a = true -> is_finite b = true ->
  B2R a = IZR x * bpow radix2 e -> B2R b = IZR y * bpow radix2 e -> FloatEqual a b = (x =? y)%Z.
Proof.
  intros He Fa Fb Ea Eb. destruct (Z.eqb_spec x y) as [->|N].
  - apply FloatEqual_same; auto. congruence.
  - destruct (FloatEqual a b) eqn:E; auto. exfalso. apply FloatEqual_close in E; auto.
    rewrite Ea, Eb, <- Rmult_minus_distr_r, <- minus_IZR, Rabs_mult, <- abs_IZR in E.
    rewrite (Rabs_pos_eq (bpow radix2 e)) in E by apply bpow_ge_0.
    assert (H : (1 <= Z.abs (x - y))%Z) by lia. apply IZR_le in H.
    assert (B : bpow radix2 (-106) <= bpow radix2 e) by (apply bpow_le; auto).
    assert (T : tiny < bpow radix2 (-106)).
    { rewrite tiny_val. replace (-106)%Z with (53 + -159)%Z by lia. rewrite bpow_plus.
      apply Rmult_lt_compat_r; [apply bpow_gt_0|]. cbn. lra. }
    pose proof (bpow_gt_0 radix2 e). nra.
Qed.
