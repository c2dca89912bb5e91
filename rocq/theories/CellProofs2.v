(** Lemmas about floating cell values. *)
From Coq Require Import ZArith Reals Ascii List Bool Lia Lra ZifyBool ZifyNat.
From Flocq Require Import Core BinarySingleNaN.
From Verif Require Import Base ListLib BasicModel FloatModel FloatProofs CoordFloatModel TypeModel MongoModel RasterModel CellModel CellSpec CellProofs.
Import ListNotations.
Open Scope Z_scope.
Open Scope outcome_scope.

(** ** Conversions between the floating types and from integers *)
Lemma norm_exact p e (Hp : Prec_gt_0 p) (Hm : Prec_lt_emax p e) m x s :
  generic_format radix2 (SpecFloat.fexp p e) (F2R (Float radix2 m x)) -> (Rabs (F2R (Float radix2 m x)) < bpow radix2 e)%R ->
  is_finite (binary_normalize p e Hp Hm mode_NE m x s) = true /\ B2R (binary_normalize p e Hp Hm mode_NE m x s) = F2R (Float radix2 m x).
Proof.
  intros F B. pose proof (binary_normalize_correct p e Hp Hm mode_NE m x s) as C. cbv zeta in C.
  rewrite (round_generic radix2 _ _ _ F) in C. rewrite Rlt_bool_true in C by exact B. tauto.
Qed.

Lemma widen_exact (x : f32) : is_finite (f64_of_f32 x) = is_finite x /\ B2R (f64_of_f32 x) = B2R x.
Proof.
  destruct x as [s|s| |s m e He]; try (split; reflexivity). cbn [is_finite].
  pose proof (generic_format_B2R 24 128 (B754_finite s m e He)) as F. pose proof (abs_B2R_lt_emax 24 128 (B754_finite s m e He)) as B. cbn [B2R] in F, B |- *.
  unfold f64_of_f32. apply norm_exact.
  - apply (generic_inclusion_mag radix2 (SpecFloat.fexp 24 128)); [|exact F]. intros _. unfold SpecFloat.fexp, SpecFloat.emin. lia.
  - apply Rlt_trans with (1 := B). apply bpow_lt. lia.
Qed.

Lemma norm_int p e (Hp : Prec_gt_0 p) (Hm : Prec_lt_emax p e) z : 65 <= e -> Z.abs z <= 2 ^ 64 ->
  is_finite (binary_normalize p e Hp Hm mode_NE z 0 false) = true /\
  B2R (binary_normalize p e Hp Hm mode_NE z 0 false) = round radix2 (SpecFloat.fexp p e) ZnearestE (IZR z).
Proof.
  intros E A. pose proof (binary_normalize_correct p e Hp Hm mode_NE z 0 false) as C. cbv zeta in C.
  assert (F : F2R (Float radix2 z 0) = IZR z) by (unfold F2R; cbn; lra). rewrite F in C. rewrite Rlt_bool_true in C; [tauto|].
  assert (V : Valid_exp (SpecFloat.fexp p e)) by (apply fexp_correct; exact Hp).
  apply Rle_lt_trans with (bpow radix2 64); [|apply bpow_lt; lia]. apply abs_round_le_generic; [exact V|apply valid_rnd_round_mode| |].
  - apply generic_format_bpow. unfold SpecFloat.fexp, SpecFloat.emin. unfold Prec_gt_0, Prec_lt_emax in *. lia.
  - rewrite <- abs_IZR. change (bpow radix2 64) with (IZR (2 ^ 64)). apply IZR_le. exact A.
Qed.

(** The comparisons of the range check, for either floating type. *)
Section Check.
Context {p e : Z} (Hp : Prec_gt_0 p) (Hm : Prec_lt_emax p e).
Hypothesis He : 65 <= e.
Let fe := SpecFloat.fexp p e.
Let conv z : binary_float p e := binary_normalize p e Hp Hm mode_NE z 0 false.

Lemma fe_valid : Valid_exp fe. Proof. apply fexp_correct. exact Hp. Qed.

Lemma below (x : binary_float p e) w : is_finite x = true -> 0 <= w <= 63 -> Bltb x (conv (- 2 ^ w)) = Rlt_bool (B2R x) (IZR (- 2 ^ w)).
Proof.
  intros F W. assert (P : 0 < 2 ^ w <= 2 ^ 64) by (split; [apply Z.pow_pos_nonneg; lia|apply Z.pow_le_mono_r; lia]).
  destruct (norm_int p e Hp Hm (- 2 ^ w) He ltac:(lia)) as [F1 E1]. rewrite Bltb_correct by assumption. unfold conv. rewrite E1.
  rewrite round_generic; [reflexivity|apply valid_rnd_N|]. rewrite opp_IZR. apply generic_format_opp. change (IZR (2 ^ w)) with (IZR (radix2 ^ w)). rewrite IZR_Zpower by lia.
  apply generic_format_bpow. unfold SpecFloat.fexp, SpecFloat.emin. unfold Prec_gt_0, Prec_lt_emax in *. lia.
Qed.
Lemma below0 (x : binary_float p e) : is_finite x = true -> Bltb x (conv 0) = Rlt_bool (B2R x) 0.
Proof.
  intros F. destruct (norm_int p e Hp Hm 0 He ltac:(lia)) as [F1 E1]. rewrite Bltb_correct by assumption. unfold conv. rewrite E1, round_0; [reflexivity|apply valid_rnd_N].
Qed.

Instance fe_monotone : Monotone_exp fe. Proof. apply fexp_monotone. Qed.

Lemma not_above (x : binary_float p e) z : is_finite x = true -> Z.abs z <= 2 ^ 64 -> (B2R x <= IZR z)%R -> Bltb (conv z) x = false.
Proof.
  intros F W L. destruct (norm_int p e Hp Hm z He W) as [F1 E1]. rewrite Bltb_correct by assumption. unfold conv. rewrite E1. apply Rlt_bool_false.
  rewrite <- (round_generic radix2 fe ZnearestE (B2R x)) by apply generic_format_B2R. apply round_le; [apply fe_valid|apply valid_rnd_N|exact L].
Qed.

(** Between an end of the range and its successor. *)
Lemma above (x : binary_float p e) z : is_finite x = true -> 0 < z <= 2 ^ 64 -> (IZR z < B2R x < IZR (z + 1))%R -> Bltb (conv z) x = true.
Proof.
  intros F W [L1 L2]. destruct (norm_int p e Hp Hm z He ltac:(lia)) as [F1 E1]. rewrite Bltb_correct by assumption. unfold conv. rewrite E1. apply Rlt_bool_true.
  pose proof fe_valid as V. pose proof (IZR_lt 0 z ltac:(lia)) as ZP.
  assert (C : cexp radix2 fe (B2R x) < 0).
  { destruct (Z_lt_dec (cexp radix2 fe (B2R x)) 0) as [Q|Q]; [exact Q|exfalso].
    pose proof (generic_format_B2R p e x) as G. unfold generic_format in G. fold fe in G. unfold F2R in G. cbn [Fnum Fexp] in G.
    set (m := Ztrunc (scaled_mantissa radix2 fe (B2R x))) in *. rewrite <- IZR_Zpower in G by lia. rewrite <- mult_IZR in G. rewrite G in L1, L2.
    apply lt_IZR in L1. apply lt_IZR in L2. lia. }
  assert (Z0 : generic_format radix2 fe (IZR z)).
  { replace (IZR z) with (F2R (Float radix2 z 0)) by (unfold F2R; cbn; lra). apply generic_format_F2R. intros _.
    apply Z.le_trans with (cexp radix2 fe (B2R x)); [|lia]. unfold cexp. apply fe_monotone. apply mag_le; replace (F2R (Float radix2 z 0)) with (IZR z) by (unfold F2R; cbn; lra); lra. }
  rewrite round_generic; [exact L1|apply valid_rnd_N|exact Z0].
Qed.
End Check.

(** ** Floating cells and integer types *)
Definition is_floating (v : num) : Prop := match v with VI _ => False | _ => True end.

Lemma real_double v r : is_floating v -> real_of v = Some r -> is_finite (as_double v) = true /\ B2R (as_double v) = r.
Proof.
  destruct v as [z|x|x]; cbn; [tauto| |]; intros _ E; destruct (is_finite x) eqn:F; try discriminate; injection E as <-; auto.
  destruct (widen_exact x) as [-> ->]. auto.
Qed.
Lemma no_real_double v : is_floating v -> real_of v = None -> is_finite (as_double v) = false.
Proof.
  destruct v as [z|x|x]; cbn; [tauto| |]; intros _ E; destruct (is_finite x) eqn:F; try discriminate; auto.
  destruct (widen_exact x) as [-> _]. auto.
Qed.

Lemma trunc_between r lo hi : lo <= 0 <= hi -> (IZR (lo - 1) < r < IZR (hi + 1))%R <-> lo <= Ztrunc r <= hi.
Proof.
  intros B. destruct (Rle_or_lt 0 r) as [P|P].
  - rewrite (Ztrunc_floor r P). pose proof (Zfloor_lb r) as L1. pose proof (Zfloor_ub r) as L2.
    assert (0 <= Zfloor r) by (apply Zfloor_lub; exact P). split.
    + intros [_ A]. split; [lia|]. enough (Zfloor r < hi + 1) by lia. apply lt_IZR. lra.
    + intros [_ A]. split; [apply Rlt_le_trans with 0%R; [apply (IZR_lt _ 0); lia|lra]|]. apply Rlt_le_trans with (1 := L2). rewrite <- plus_IZR. apply IZR_le. lia.
  - rewrite Ztrunc_ceil by lra. pose proof (Zceil_ub r) as L1.
    assert (L2 : (IZR (Zceil r) < r + 1)%R). { unfold Zceil. rewrite opp_IZR. pose proof (Zfloor_ub (- r)). lra. }
    assert (Zceil r <= 0) by (apply Zceil_glb; lra). split.
    + intros [A _]. split; [|lia]. enough (lo - 1 < Zceil r) by lia. apply lt_IZR. lra.
    + intros [A _]. split; [|apply Rlt_le_trans with 0%R; [lra|apply (IZR_le 0); lia]]. rewrite minus_IZR. apply IZR_le in A. lra.
Qed.

Lemma Btrunc_real (x : f64) : Btrunc x = Ztrunc (B2R x).
Proof.
  apply eq_IZR. rewrite (Btrunc_correct 53 1024 prec_lt_53). unfold round, F2R, scaled_mantissa, cexp, FIX_exp. cbn [Fnum Fexp].
  change (bpow radix2 (- 0)) with 1%R. change (bpow radix2 0) with 1%R. now rewrite !Rmult_1_r.
Qed.

Lemma around_zero t : least t <= 0 <= most t.
Proof. destruct t; cbn; lia. Qed.

Lemma cvt_floating t v : integer_type t -> is_floating v -> cvt t v = let* z := cast_int (least t) (most t) (as_double v) in Ok (VI z).
Proof. intros H F. pose proof (int_range_kind t H) as E. destruct v; [destruct F| |]; types H; unfold cvt; rewrite E; reflexivity. Qed.

Lemma cast_good t v r : integer_type t -> is_floating v -> real_of v = Some r -> (IZR (least t - 1) < r < IZR (most t + 1))%R ->
  cvt t v = Ok (VI (Ztrunc r)).
Proof.
  intros H F E B. rewrite cvt_floating by assumption. destruct (real_double v r F E) as [A1 A2]. unfold cast_int. rewrite A1, Btrunc_real, A2.
  apply trunc_between in B; [|apply around_zero]. replace ((least t <=? Ztrunc r) && (Ztrunc r <=? most t)) with true by lia. reflexivity.
Qed.
Lemma cast_bad t v : integer_type t -> is_floating v ->
  (forall r, real_of v = Some r -> ~ (IZR (least t - 1) < r < IZR (most t + 1))%R) -> cvt t v = UB.
Proof.
  intros H F B. rewrite cvt_floating by assumption. unfold cast_int. destruct (real_of v) as [r|] eqn:E.
  - destruct (real_double v r F E) as [A1 A2]. rewrite A1, Btrunc_real, A2. specialize (B r eq_refl). rewrite trunc_between in B by apply around_zero.
    replace ((least t <=? Ztrunc r) && (Ztrunc r <=? most t)) with false by lia. reflexivity.
  - rewrite (no_real_double v F E). reflexivity.
Qed.

Lemma least_cases t : integer_type t -> least t = 0 \/ exists w, 0 <= w <= 63 /\ least t = - 2 ^ w.
Proof.
  intros H. types H; cbn [least int_kind]; auto; right.
  - exists 7; split; [lia|reflexivity]. - exists 15; split; [lia|reflexivity]. - exists 31; split; [lia|reflexivity]. - exists 63; split; [lia|reflexivity].
Qed.
Lemma most_bounds t : integer_type t -> 0 < most t <= 2 ^ 64.
Proof. intros H. types H; cbn [most int_kind]; lia. Qed.

Section CheckType.
Context {p e : Z} (Hp : Prec_gt_0 p) (Hm : Prec_lt_emax p e) (He : 65 <= e).
Let conv z : binary_float p e := binary_normalize p e Hp Hm mode_NE z 0 false.
Lemma check_low t (x : binary_float p e) : integer_type t -> is_finite x = true -> Bltb x (conv (least t)) = Rlt_bool (B2R x) (IZR (least t)).
Proof. intros H F. destruct (least_cases t H) as [->|(w & W & ->)]; [apply below0|apply below]; auto. Qed.
Lemma check_in t (x : binary_float p e) : integer_type t -> is_finite x = true -> (IZR (least t) <= B2R x <= IZR (most t))%R ->
  Bltb x (conv (least t)) || Bltb (conv (most t)) x = false.
Proof.
  intros H F [A B]. rewrite check_low by assumption. pose proof (most_bounds t H). rewrite Rlt_bool_false by lra. cbn [orb]. apply not_above; auto. lia.
Qed.
Lemma check_out t (x : binary_float p e) : integer_type t -> is_finite x = true -> (IZR (least t - 1) < B2R x < IZR (most t + 1))%R ->
  ~ (IZR (least t) <= B2R x <= IZR (most t))%R -> Bltb x (conv (least t)) || Bltb (conv (most t)) x = true.
Proof.
  intros H F [A B] N. rewrite check_low by assumption. pose proof (most_bounds t H).
  destruct (Rlt_or_le (B2R x) (IZR (least t))) as [Q|Q]; [rewrite Rlt_bool_true by exact Q; reflexivity|].
  unfold conv; rewrite above; [apply orb_true_r|auto|auto|auto|]. split; [|exact B]. destruct (Rle_or_lt (B2R x) (IZR (most t))); [exfalso; tauto|assumption].
Qed.
End CheckType.

Lemma floating_in s t v r tlo thi : integer_type t -> is_floating v -> real_of v = Some r -> (IZR (least t) <= r <= IZR (most t))%R ->
  less s v (least t) tlo || greater s v (most t) thi = false.
Proof.
  intros H F E B. destruct v as [z|x|x]; [destruct F| |]; cbn in E; destruct (is_finite x) eqn:FX; try discriminate; injection E as <-; unfold less, greater.
  - apply (check_in prec_gt_0_24 prec_lt_24 ltac:(lia)); auto.
  - apply (check_in prec_gt_0_53 prec_lt_53 ltac:(lia)); auto.
Qed.
Lemma floating_out s t v r tlo thi : integer_type t -> is_floating v -> real_of v = Some r -> (IZR (least t - 1) < r < IZR (most t + 1))%R ->
  ~ (IZR (least t) <= r <= IZR (most t))%R -> less s v (least t) tlo || greater s v (most t) thi = true.
Proof.
  intros H F E B. destruct v as [z|x|x]; [destruct F| |]; cbn in E; destruct (is_finite x) eqn:FX; try discriminate; injection E as <-; unfold less, greater.
  - apply (check_out prec_gt_0_24 prec_lt_24 ltac:(lia)); auto.
  - apply (check_out prec_gt_0_53 prec_lt_53 ltac:(lia)); auto.
Qed.
