(** Rounding errors of the operations of one floating type. *)
From Coq Require Import ZArith Reals Lra Lia Bool Psatz.
From Flocq Require Import Core Relative Plus_error BinarySingleNaN.
From Verif Require Import Base FloatModel FastModel.
Open Scope R_scope.

Section Round.
Variables prec emax : Z.
Variable Hp : FLX.Prec_gt_0 prec.
Variable He : Prec_lt_emax prec emax.
Notation flo := (binary_float prec emax).
Notation emin := (3 - emax - prec)%Z.
Notation rnd := (round radix2 (FLT_exp emin prec) ZnearestE).

(** The unit roundoff and the least normal number. *)
Definition ulp1 : R := bpow radix2 (- prec).
Definition least : R := bpow radix2 (2 - emax).
Definition most : R := bpow radix2 (emax - 1).

Lemma ulp1_pos : 0 < ulp1.
Proof. apply bpow_gt_0. Qed.

Lemma rnd_rel : forall x, least <= Rabs x -> exists d, Rabs d <= ulp1 /\ rnd x = x * (1 + d).
Proof.
  intros x Hx.
  destruct (relative_error_N_FLT_ex radix2 emin prec Hp (fun x => negb (Z.even x)) x) as (d & Hd & E).
  - unfold least in Hx. replace (emin + prec - 1)%Z with (2 - emax)%Z by lia. exact Hx.
  - exists d. split; [|exact E]. unfold ulp1. replace (- prec + 1)%Z with (1 + - prec)%Z in Hd by lia.
    rewrite bpow_plus in Hd. change (bpow radix2 1) with 2 in Hd. lra.
Qed.

Lemma rnd_big : forall x, Rabs x <= most -> Rabs (rnd x) < bpow radix2 emax.
Proof.
  intros x Hx. assert (HE := He). unfold Prec_lt_emax in HE. assert (HP := Hp). unfold FLX.Prec_gt_0 in HP.
  apply Rle_lt_trans with most.
  - apply abs_round_le_generic; try typeclasses eauto; [|exact Hx].
    apply generic_format_bpow. unfold FLT_exp. lia.
  - unfold most. apply bpow_lt. lia.
Qed.

Lemma mul_rnd : forall a b : flo, is_finite a = true -> is_finite b = true ->
  Rabs (B2R a * B2R b) <= most ->
  B2R (mul _ _ Hp He a b) = rnd (B2R a * B2R b) /\ is_finite (mul _ _ Hp He a b) = true.
Proof.
  intros a b Fa Fb H. generalize (Bmult_correct prec emax Hp He mode_NE a b). cbv zeta.
  rewrite Rlt_bool_true by (apply rnd_big; exact H). rewrite Fa, Fb. cbn [round_mode].
  intros (E & F & _). split; [exact E|exact F].
Qed.

Lemma mul_rel : forall a b : flo, is_finite a = true -> is_finite b = true ->
  Rabs (B2R a * B2R b) <= most -> least <= Rabs (B2R a * B2R b) ->
  exists d, Rabs d <= ulp1 /\ B2R (mul _ _ Hp He a b) = B2R a * B2R b * (1 + d) /\ is_finite (mul _ _ Hp He a b) = true.
Proof.
  intros a b Fa Fb H1 H2. destruct (mul_rnd a b Fa Fb H1) as (E & F).
  destruct (rnd_rel _ H2) as (d & Hd & Er). exists d. rewrite E, Er. auto.
Qed.

Lemma rnd_plus_rel : forall a b : flo, exists d, Rabs d <= ulp1 /\ rnd (B2R a + B2R b) = (B2R a + B2R b) * (1 + d).
Proof.
  intros a b.
  destruct (FLT_plus_error_N_ex radix2 emin prec (fun x => negb (Z.even x)) (B2R a) (B2R b)
              (generic_format_B2R prec emax a) (generic_format_B2R prec emax b)) as (d & Hd & E).
  exists d. split; [|exact E].
  eapply Rle_trans; [exact Hd|]. unfold u_ro. fold ulp1.
  assert (P := bpow_gt_0 radix2 (- prec)).
  replace (- prec + 1)%Z with (1 + - prec)%Z by lia. rewrite bpow_plus. change (bpow radix2 1) with 2.
  unfold ulp1. set (u := bpow radix2 (- prec)) in *.
  replace (/ 2 * (2 * u)) with u by field.
  assert (u * / (1 + u) <= u * 1).
  { apply Rmult_le_compat_l; [lra|]. rewrite <- Rinv_1. apply Rinv_le; lra. }
  unfold Rdiv. lra.
Qed.

Lemma add_rel : forall a b : flo, is_finite a = true -> is_finite b = true ->
  Rabs (B2R a + B2R b) <= most ->
  exists d, Rabs d <= ulp1 /\ B2R (add _ _ Hp He a b) = (B2R a + B2R b) * (1 + d) /\ is_finite (add _ _ Hp He a b) = true.
Proof.
  intros a b Fa Fb H. generalize (Bplus_correct prec emax Hp He mode_NE a b Fa Fb).
  rewrite Rlt_bool_true by (apply rnd_big; exact H). cbn [round_mode]. intros (E & F & _).
  destruct (rnd_plus_rel a b) as (d & Hd & Er). exists d. unfold add. rewrite E. auto.
Qed.

Lemma sub_rel : forall a b : flo, is_finite a = true -> is_finite b = true ->
  Rabs (B2R a - B2R b) <= most ->
  exists d, Rabs d <= ulp1 /\ B2R (sub _ _ Hp He a b) = (B2R a - B2R b) * (1 + d) /\ is_finite (sub _ _ Hp He a b) = true.
Proof.
  intros a b Fa Fb H. generalize (Bminus_correct prec emax Hp He mode_NE a b Fa Fb).
  rewrite Rlt_bool_true by (apply rnd_big; exact H). cbn [round_mode]. intros (E & F & _).
  destruct (rnd_plus_rel a (Bopp b)) as (d & Hd & Er). rewrite B2R_Bopp in Er.
  exists d. unfold sub. rewrite E. auto.
Qed.

Lemma div_rnd : forall a b : flo, is_finite a = true -> B2R b <> 0 ->
  Rabs (B2R a / B2R b) <= most ->
  B2R (div _ _ Hp He a b) = rnd (B2R a / B2R b) /\ is_finite (div _ _ Hp He a b) = true.
Proof.
  intros a b Fa Nb H. generalize (Bdiv_correct prec emax Hp He mode_NE a b Nb).
  rewrite Rlt_bool_true by (apply rnd_big; exact H). cbn [round_mode]. intros (E & F & _).
  rewrite Fa in F. split; assumption.
Qed.

Lemma div_rel : forall a b : flo, is_finite a = true -> B2R b <> 0 ->
  Rabs (B2R a / B2R b) <= most -> least <= Rabs (B2R a / B2R b) ->
  exists d, Rabs d <= ulp1 /\ B2R (div _ _ Hp He a b) = B2R a / B2R b * (1 + d) /\ is_finite (div _ _ Hp He a b) = true.
Proof.
  intros a b Fa Nb H1 H2. destruct (div_rnd a b Fa Nb H1) as (E & F).
  destruct (rnd_rel _ H2) as (d & Hd & Er). exists d. rewrite E, Er. auto.
Qed.

(** Small values: the error is absolute. *)
Lemma rnd_abs : forall x, Rabs (rnd x - x) <= ulp1 * Rabs x + ulp1 * least.
Proof.
  intros x.
  destruct (Rle_lt_dec least (Rabs x)) as [L|L].
  - destruct (rnd_rel _ L) as (d & Hd & Er). rewrite Er.
    replace (x * (1 + d) - x) with (x * d) by ring. rewrite Rabs_mult.
    assert (0 <= ulp1 * least) by (apply Rmult_le_pos; [left; apply ulp1_pos|left; apply bpow_gt_0]).
    assert (Rabs x * Rabs d <= Rabs x * ulp1) by (apply Rmult_le_compat_l; [apply Rabs_pos|exact Hd]). lra.
  - assert (A : Rabs (rnd x - x) <= / 2 * ulp radix2 (FLT_exp emin prec) x).
    { apply error_le_half_ulp. typeclasses eauto. }
    assert (U : ulp radix2 (FLT_exp emin prec) x = bpow radix2 emin).
    { apply ulp_FLT_small; [exact Hp|]. replace (emin + prec)%Z with (1 + (2 - emax))%Z by lia.
      rewrite bpow_plus. change (bpow radix2 1) with 2. fold least. assert (0 < least) by apply bpow_gt_0. lra. }
    rewrite U in A.
    assert (E2 : / 2 * bpow radix2 emin = ulp1 * least).
    { unfold ulp1, least. rewrite <- bpow_plus. replace (- prec + (2 - emax))%Z with (-1 + emin)%Z by lia.
      rewrite bpow_plus. change (bpow radix2 (-1)) with (/ 2). reflexivity. }
    assert (0 <= ulp1 * Rabs x) by (apply Rmult_le_pos; [left; apply ulp1_pos|apply Rabs_pos]). lra.
Qed.
Lemma mul_abs : forall a b : flo, is_finite a = true -> is_finite b = true ->
  Rabs (B2R a * B2R b) <= most ->
  Rabs (B2R (mul _ _ Hp He a b) - B2R a * B2R b) <= ulp1 * Rabs (B2R a * B2R b) + ulp1 * least
  /\ is_finite (mul _ _ Hp He a b) = true.
Proof. intros a b Fa Fb H. destruct (mul_rnd a b Fa Fb H) as (E & F). split; [|exact F]. rewrite E. apply rnd_abs. Qed.
Lemma div_abs : forall a b : flo, is_finite a = true -> B2R b <> 0 ->
  Rabs (B2R a / B2R b) <= most ->
  Rabs (B2R (div _ _ Hp He a b) - B2R a / B2R b) <= ulp1 * Rabs (B2R a / B2R b) + ulp1 * least
  /\ is_finite (div _ _ Hp He a b) = true.
Proof. intros a b Fa Fb H. destruct (div_rnd a b Fa Fb H) as (E & F). split; [|exact F]. rewrite E. apply rnd_abs. Qed.

(** A quotient at least an integer: so is its rounding, unless it overflows. *)
Lemma div_ge : forall (a b : flo) z, is_finite a = true -> B2R b <> 0 -> (0 <= z <= 2 ^ prec)%Z -> IZR z <= B2R a / B2R b ->
  is_finite (div _ _ Hp He a b) = true -> IZR z <= B2R (div _ _ Hp He a b).
Proof.
  intros a b z Fa Nb Hz H F. assert (HE := He). unfold Prec_lt_emax in HE. assert (HP := Hp). unfold FLX.Prec_gt_0 in HP.
  generalize (Bdiv_correct prec emax Hp He mode_NE a b Nb). cbn [round_mode].
  destruct (Rlt_bool _ _).
  - intros (E & _). unfold div. rewrite E. apply round_ge_generic; try typeclasses eauto; [|exact H].
    destruct (Z.eq_dec z (2 ^ prec)) as [->|Q].
    + rewrite (IZR_Zpower radix2) by lia. apply generic_format_bpow. unfold SpecFloat.fexp, SpecFloat.emin. lia.
    + apply generic_format_FLT. exists (Float radix2 z 0); cbn [Fnum Fexp]; [unfold F2R; cbn; ring| |unfold SpecFloat.emin; lia].
      change (Zpower radix2 prec) with (2 ^ prec)%Z. lia.
  - intros O. unfold div in F. destruct (Bdiv mode_NE a b); cbn in *; try discriminate; unfold binary_overflow in O; destruct (xorb _ _); discriminate.
Qed.

(** Integers and literals. *)
Lemma norm_rnd : forall m e s, Rabs (F2R (Float radix2 m e)) <= most ->
  B2R (binary_normalize prec emax Hp He mode_NE m e s) = rnd (F2R (Float radix2 m e))
  /\ is_finite (binary_normalize prec emax Hp He mode_NE m e s) = true.
Proof.
  intros m e s H. generalize (binary_normalize_correct prec emax Hp He mode_NE m e s). cbv zeta.
  rewrite Rlt_bool_true by (apply rnd_big; exact H). cbn [round_mode]. intros (E & F & _). auto.
Qed.

Lemma int_to_exact : forall z, (Z.abs z <= 2 ^ prec)%Z -> B2R (int_to _ _ Hp He z) = IZR z /\ is_finite (int_to _ _ Hp He z) = true.
Proof.
  intros z Hz. assert (HE := He). unfold Prec_lt_emax in HE. assert (HP := Hp). unfold FLX.Prec_gt_0 in HP.
  assert (E : F2R (Float radix2 z 0) = IZR z) by (unfold F2R; cbn; ring).
  assert (B : Rabs (IZR z) <= most).
  { rewrite <- abs_IZR. unfold most. apply Rle_trans with (bpow radix2 prec).
    - rewrite <- IZR_Zpower by lia. apply IZR_le. exact Hz.
    - apply bpow_le. lia. }
  destruct (norm_rnd z 0 false) as (A & F); [now rewrite E|]. split; [|exact F].
  unfold int_to. rewrite A, E. apply round_generic; [typeclasses eauto|].
  destruct (Z.eq_dec (Z.abs z) (2 ^ prec)) as [Q|Q].
  - assert (G : generic_format radix2 (FLT_exp emin prec) (bpow radix2 prec)).
    { apply generic_format_bpow. unfold FLT_exp. lia. }
    rewrite <- IZR_Zpower in G by lia. change (Zpower radix2 prec) with (2 ^ prec)%Z in G. rewrite <- Q in G.
    destruct (Z.abs_eq_or_opp z) as [W|W]; rewrite W in G; [exact G|].
    rewrite opp_IZR in G. apply generic_format_opp in G. now rewrite Ropp_involutive in G.
  - apply generic_format_FLT. exists (Float radix2 z 0); [now rewrite E| |]; cbn [Fnum Fexp].
    + change (Zpower radix2 prec) with (2 ^ prec)%Z. lia.
    + lia.
Qed.
(** Powers of two are exact whatever the precision. *)
Lemma int_to_pow : forall k, (0 <= k < emax)%Z -> B2R (int_to _ _ Hp He (2 ^ k)) = bpow radix2 k /\ is_finite (int_to _ _ Hp He (2 ^ k)) = true.
Proof.
  intros k Hk. assert (HE := He). unfold Prec_lt_emax in HE. assert (HP := Hp). unfold FLX.Prec_gt_0 in HP.
  assert (E : F2R (Float radix2 (2 ^ k) 0) = bpow radix2 k).
  { unfold F2R. cbn [Fnum Fexp]. change (bpow radix2 0) with 1. rewrite Rmult_1_r. apply (IZR_Zpower radix2). lia. }
  destruct (norm_rnd (2 ^ k) 0 false) as (A & F).
  { rewrite E, Rabs_pos_eq by apply bpow_ge_0. apply bpow_le. lia. }
  split; [|exact F]. unfold int_to. rewrite A, E. apply round_generic; [typeclasses eauto|].
  apply generic_format_bpow. unfold FLT_exp. lia.
Qed.
Lemma int_to_neg : forall k, (0 <= k < emax)%Z -> B2R (int_to _ _ Hp He (- 2 ^ k)) = - bpow radix2 k /\ is_finite (int_to _ _ Hp He (- 2 ^ k)) = true.
Proof.
  intros k Hk. assert (HE := He). unfold Prec_lt_emax in HE. assert (HP := Hp). unfold FLX.Prec_gt_0 in HP.
  assert (E : F2R (Float radix2 (- 2 ^ k) 0) = - bpow radix2 k).
  { unfold F2R. cbn [Fnum Fexp]. change (bpow radix2 0) with 1. rewrite Rmult_1_r, opp_IZR. f_equal. apply (IZR_Zpower radix2). lia. }
  destruct (norm_rnd (- 2 ^ k) 0 false) as (A & F).
  { rewrite E, Rabs_Ropp, Rabs_pos_eq by apply bpow_ge_0. apply bpow_le. lia. }
  split; [|exact F]. unfold int_to. rewrite A, E. apply round_generic; [typeclasses eauto|].
  apply generic_format_opp, generic_format_bpow. unfold FLT_exp. lia.
Qed.
End Round.
