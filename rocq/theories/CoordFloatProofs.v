(** Rounding error analysis of the coordinate functions. *)
From Coq Require Import ZArith Reals Bool Lia Lra Psatz.
From Flocq Require Import Core BinarySingleNaN Relative.
From Verif Require Import Base FloatModel FloatProofs TypeModel CoordFloatModel CoordFloatSpec.
Open Scope R_scope.

Local Instance p53' : Prec_gt_0 53 := prec_gt_0_53.

(** Bounds used throughout, as rationals. *)
Definition u : R := / IZR (2 ^ 53).
Definition eta : R := bpow radix2 (-1075).

Lemma u_eq : / 2 * bpow radix2 (Z.opp 53 + 1) = u.
Proof. unfold u. change (bpow radix2 (Z.opp 53 + 1)) with (/ IZR (2 ^ 52)). change (2 ^ 52)%Z with 4503599627370496%Z. change (2 ^ 53)%Z with 9007199254740992%Z. lra. Qed.

Lemma round_error x : Rabs (rnd x - x) <= u * Rabs x + eta.
Proof.
  assert (P : 0 < eta) by apply bpow_gt_0. assert (U : 0 < u) by (unfold u; apply Rinv_0_lt_compat; apply IZR_lt; lia).
  destruct (Rle_or_lt (bpow radix2 (-1074 + 53 - 1)) (Rabs x)) as [H|H].
  - pose proof (relative_error_N_FLT radix2 (-1074) 53 prec_gt_0_53 (fun x => negb (Z.even x)) x H) as R.
    rewrite u_eq in R. change (round radix2 (FLT_exp (-1074) 53) (Znearest (fun x0 : Z => negb (Z.even x0))) x) with (rnd x) in R.
    lra.
  - pose proof (error_le_half_ulp radix2 (FLT_exp (-1074) 53) (fun x => negb (Z.even x)) x) as E.
    rewrite (ulp_FLT_small radix2 (-1074) 53 x) in E.
    + change (round radix2 (FLT_exp (-1074) 53) (Znearest (fun x0 : Z => negb (Z.even x0))) x) with (rnd x) in E.
      assert (X : / 2 * bpow radix2 (-1074) = eta).
      { unfold eta. change (-1074)%Z with (1 + -1075)%Z. rewrite bpow_plus. change (bpow radix2 1) with 2. lra. }
      rewrite X in E. pose proof (Rabs_pos x). assert (0 <= u * Rabs x) by (apply Rmult_le_pos; lra). lra.
    + apply Rlt_le_trans with (1 := H). apply bpow_le. lia.
Qed.

Definition big : R := bpow radix2 1000.

Lemma round_bound x : Rabs x <= big -> Rabs (rnd x) < bpow radix2 1024.
Proof.
  intros H. apply Rle_lt_trans with big; [|apply bpow_lt; lia].
  apply abs_round_le_generic; try typeclasses eauto; [|exact H].
  apply generic_format_bpow. cbn. lia.
Qed.

(** [near x v e]: [x] is finite and within [e] of [v]. *)
Definition near (x : f64) (v e : R) : Prop := is_finite x = true /\ Rabs (B2R x - v) <= e.

Lemma near_add a b : is_finite a = true -> is_finite b = true -> Rabs (B2R a + B2R b) <= big ->
  near (fadd a b) (B2R a + B2R b) (u * Rabs (B2R a + B2R b) + eta).
Proof.
  intros Fa Fb H. pose proof (Bplus_correct 53 1024 prec_gt_0_53 prec_lt_53 mode_NE a b Fa Fb) as C.
  change (round radix2 (SpecFloat.fexp 53 1024) (round_mode mode_NE)) with rnd in C.
  rewrite (Rlt_bool_true _ _ (round_bound _ H)) in C. destruct C as [E [F _]].
  split; [exact F|]. unfold fadd. rewrite E. apply round_error.
Qed.

Lemma near_sub a b : is_finite a = true -> is_finite b = true -> Rabs (B2R a - B2R b) <= big ->
  near (fsub a b) (B2R a - B2R b) (u * Rabs (B2R a - B2R b) + eta).
Proof.
  intros Fa Fb H. pose proof (Bminus_correct 53 1024 prec_gt_0_53 prec_lt_53 mode_NE a b Fa Fb) as C.
  change (round radix2 (SpecFloat.fexp 53 1024) (round_mode mode_NE)) with rnd in C.
  rewrite (Rlt_bool_true _ _ (round_bound _ H)) in C. destruct C as [E [F _]].
  split; [exact F|]. unfold fsub. rewrite E. apply round_error.
Qed.

Lemma near_mul a b : is_finite a = true -> is_finite b = true -> Rabs (B2R a * B2R b) <= big ->
  near (fmul a b) (B2R a * B2R b) (u * Rabs (B2R a * B2R b) + eta).
Proof.
  intros Fa Fb H. pose proof (Bmult_correct 53 1024 prec_gt_0_53 prec_lt_53 mode_NE a b) as C.
  change (round radix2 (SpecFloat.fexp 53 1024) (round_mode mode_NE)) with rnd in C.
  rewrite (Rlt_bool_true _ _ (round_bound _ H)) in C. destruct C as [E [F _]].
  split; [unfold fmul; now rewrite F, Fa, Fb|]. unfold fmul. rewrite E. apply round_error.
Qed.

Lemma near_div a b : is_finite a = true -> B2R b <> 0 -> Rabs (B2R a / B2R b) <= big ->
  near (fdiv a b) (B2R a / B2R b) (u * Rabs (B2R a / B2R b) + eta).
Proof.
  intros Fa Nb H. pose proof (Bdiv_correct 53 1024 prec_gt_0_53 prec_lt_53 mode_NE a b Nb) as C.
  change (round radix2 (SpecFloat.fexp 53 1024) (round_mode mode_NE)) with rnd in C.
  rewrite (Rlt_bool_true _ _ (round_bound _ H)) in C. destruct C as [E [F _]].
  split; [unfold fdiv; now rewrite F|]. unfold fdiv. rewrite E. apply round_error.
Qed.

(** Adding a non-negative number never goes below the first operand. *)
Lemma add_ge a b : is_finite a = true -> is_finite b = true -> Rabs (B2R a + B2R b) <= big -> 0 <= B2R b ->
  B2R a <= B2R (fadd a b).
Proof.
  intros Fa Fb H P. pose proof (Bplus_correct 53 1024 prec_gt_0_53 prec_lt_53 mode_NE a b Fa Fb) as C.
  change (round radix2 (SpecFloat.fexp 53 1024) (round_mode mode_NE)) with rnd in C.
  rewrite (Rlt_bool_true _ _ (round_bound _ H)) in C. destruct C as [E _]. unfold fadd. rewrite E.
  apply round_ge_generic; try typeclasses eauto; [apply fmt_B2R|lra].
Qed.

Lemma mul_ge0 a b : is_finite a = true -> is_finite b = true -> Rabs (B2R a * B2R b) <= big ->
  0 <= B2R a * B2R b -> 0 <= B2R (fmul a b).
Proof.
  intros Fa Fb H P. pose proof (Bmult_correct 53 1024 prec_gt_0_53 prec_lt_53 mode_NE a b) as C.
  change (round radix2 (SpecFloat.fexp 53 1024) (round_mode mode_NE)) with rnd in C.
  rewrite (Rlt_bool_true _ _ (round_bound _ H)) in C. destruct C as [E _]. unfold fmul. rewrite E.
  apply round_ge_generic; try typeclasses eauto; [apply generic_format_0|exact P].
Qed.

Lemma f_int_between x k : is_finite x = true -> IZR k <= B2R x -> B2R x < IZR (k + 1) -> (0 <= k <= INT_MAX)%Z ->
  f_int x = Ok k.
Proof.
  intros F H1 H2 Hk. unfold f_int, cast_int. rewrite F.
  assert (E : Btrunc x = k).
  { apply eq_IZR. rewrite (Btrunc_correct 53 1024 prec_lt_53). unfold round, F2R, scaled_mantissa, cexp, FIX_exp. cbn [Fnum Fexp].
    change (bpow radix2 (- 0)) with 1. change (bpow radix2 0) with 1. rewrite !Rmult_1_r. f_equal.
    rewrite Ztrunc_floor by (apply Rle_trans with (2 := H1); apply IZR_le; lia).
    apply Zfloor_imp; split; assumption. }
  rewrite E. unfold INT_MIN, INT_MAX in *.
  replace ((-2147483648 <=? k) && (k <=? 2147483647))%Z with true; [reflexivity|].
  symmetry. apply andb_true_iff. split; apply Z.leb_le; lia.
Qed.

(** Composition. *)
Lemma near_le x v e e' : near x v e -> e <= e' -> near x v e'.
Proof. intros [F H] L. split; [exact F|lra]. Qed.

Lemma near_exact x : is_finite x = true -> near x (B2R x) 0.
Proof. intros F. split; [exact F|]. rewrite Rminus_eq_0, Rabs_R0. lra. Qed.

Ltac absb H := apply Rabs_def2 in H || (let A := fresh in let B := fresh in pose proof (Rabs_le_inv _ _ H) as [A B]).

Lemma abs_near x v e : Rabs (x - v) <= e -> Rabs x <= Rabs v + e.
Proof. intros H. replace x with (v + (x - v)) by ring. apply Rle_trans with (1 := Rabs_triang _ _). lra. Qed.

Lemma u_pos : 0 < u.
Proof. unfold u. apply Rinv_0_lt_compat, IZR_lt. lia. Qed.

Lemma add_near a b va vb ea eb K : near a va ea -> near b vb eb -> Rabs (va + vb) + ea + eb <= K -> K <= big ->
  near (fadd a b) (va + vb) (ea + eb + (u * K + eta)).
Proof.
  intros [Fa Ha] [Fb Hb] HK HB.
  assert (D : Rabs (B2R a + B2R b - (va + vb)) <= ea + eb).
  { replace (B2R a + B2R b - (va + vb)) with ((B2R a - va) + (B2R b - vb)) by ring.
    apply Rle_trans with (1 := Rabs_triang _ _). lra. }
  pose proof (abs_near _ _ _ D) as M.
  destruct (near_add a b Fa Fb ltac:(lra)) as [F H]. split; [exact F|].
  replace (B2R (fadd a b) - (va + vb)) with ((B2R (fadd a b) - (B2R a + B2R b)) + (B2R a + B2R b - (va + vb))) by ring.
  apply Rle_trans with (1 := Rabs_triang _ _).
  assert (u * Rabs (B2R a + B2R b) <= u * K) by (apply Rmult_le_compat_l; [apply Rlt_le, u_pos|lra]). lra.
Qed.

Lemma sub_near a b va vb ea eb K : near a va ea -> near b vb eb -> Rabs (va - vb) + ea + eb <= K -> K <= big ->
  near (fsub a b) (va - vb) (ea + eb + (u * K + eta)).
Proof.
  intros [Fa Ha] [Fb Hb] HK HB.
  assert (D : Rabs (B2R a - B2R b - (va - vb)) <= ea + eb).
  { replace (B2R a - B2R b - (va - vb)) with ((B2R a - va) + - (B2R b - vb)) by ring.
    apply Rle_trans with (1 := Rabs_triang _ _). rewrite Rabs_Ropp. lra. }
  pose proof (abs_near _ _ _ D) as M.
  destruct (near_sub a b Fa Fb ltac:(lra)) as [F H]. split; [exact F|].
  replace (B2R (fsub a b) - (va - vb)) with ((B2R (fsub a b) - (B2R a - B2R b)) + (B2R a - B2R b - (va - vb))) by ring.
  apply Rle_trans with (1 := Rabs_triang _ _).
  assert (u * Rabs (B2R a - B2R b) <= u * K) by (apply Rmult_le_compat_l; [apply Rlt_le, u_pos|lra]). lra.
Qed.

(** The products taken are of exactly represented numbers. *)
Lemma mul_near a b K : is_finite a = true -> is_finite b = true -> Rabs (B2R a * B2R b) <= K -> K <= big ->
  near (fmul a b) (B2R a * B2R b) (u * K + eta).
Proof.
  intros Fa Fb HK HB. apply near_le with (1 := near_mul a b Fa Fb ltac:(lra)).
  assert (u * Rabs (B2R a * B2R b) <= u * K) by (apply Rmult_le_compat_l; [apply Rlt_le, u_pos|lra]). lra.
Qed.

Lemma div_near a b va ea K : near a va ea -> 0 < B2R b -> Rabs va / B2R b + ea / B2R b <= K -> K <= big ->
  near (fdiv a b) (va / B2R b) (ea / B2R b + (u * K + eta)).
Proof.
  intros [Fa Ha] P HK HB. set (s := B2R b) in *.
  assert (I : 0 < / s) by (apply Rinv_0_lt_compat, P).
  assert (D : Rabs (B2R a / s - va / s) <= ea / s).
  { replace (B2R a / s - va / s) with ((B2R a - va) * / s) by (unfold Rdiv; ring).
    rewrite Rabs_mult, (Rabs_pos_eq (/ s)) by lra. apply Rmult_le_compat_r; lra. }
  pose proof (abs_near _ _ _ D) as M. unfold Rdiv at 2 in M. rewrite Rabs_mult, (Rabs_pos_eq (/ s)) in M by lra.
  fold (Rabs va / s) in M.
  assert (M' : Rabs (B2R a / s) <= K) by lra.
  destruct (near_div a b Fa ltac:(fold s; lra) ltac:(fold s; lra)) as [F H]. fold s in H. split; [exact F|].
  replace (B2R (fdiv a b) - va / s) with ((B2R (fdiv a b) - B2R a / s) + (B2R a / s - va / s)) by ring.
  apply Rle_trans with (1 := Rabs_triang _ _).
  assert (u * Rabs (B2R a / s) <= u * K) by (apply Rmult_le_compat_l; [apply Rlt_le, u_pos|lra]). lra.
Qed.

Lemma flt_R a b : is_finite a = true -> is_finite b = true -> flt a b = Rlt_bool (B2R a) (B2R b).
Proof. intros. unfold flt. apply Bltb_correct; assumption. Qed.

(** Magnitudes: the cell size is between 2^-900 and 2^900, the origin at most
    2^40 cells away from zero, the extent counts below 2^31. *)
Section Geo.
Variable g : fgeo.
Let s := B2R (fg_cs g).
Let X := B2R (fg_xll g).
Let Y := B2R (fg_yll g).
Hypothesis FX : is_finite (fg_xll g) = true.
Hypothesis FY : is_finite (fg_yll g) = true.
Hypothesis FS : is_finite (fg_cs g) = true.
Hypothesis S1 : bpow radix2 (-900) <= s.
Hypothesis S2 : s <= bpow radix2 900.
Hypothesis HX : Rabs X <= IZR (2 ^ 40) * s.
Hypothesis HY : Rabs Y <= IZR (2 ^ 40) * s.
Hypothesis NR : (0 <= fg_rows g <= INT_MAX)%Z.
Hypothesis NC : (0 <= fg_cols g <= INT_MAX)%Z.

Lemma s_pos : 0 < s.
Proof. apply Rlt_le_trans with (2 := S1). apply bpow_gt_0. Qed.

Lemma eta_s : eta <= / IZR (2 ^ 60) * s.
Proof.
  apply Rle_trans with (/ IZR (2 ^ 60) * bpow radix2 (-900)).
  - unfold eta. change (/ IZR (2 ^ 60)) with (bpow radix2 (-60)). rewrite <- bpow_plus. apply bpow_le. lia.
  - apply Rmult_le_compat_l; [|exact S1]. apply Rlt_le, Rinv_0_lt_compat, IZR_lt. lia.
Qed.

Lemma eta_1 : eta <= / IZR (2 ^ 60).
Proof. unfold eta. change (/ IZR (2 ^ 60)) with (bpow radix2 (-60)). apply bpow_le. lia. Qed.

Lemma big_s : IZR (2 ^ 50) * s <= big.
Proof.
  apply Rle_trans with (IZR (2 ^ 50) * bpow radix2 900).
  - apply Rmult_le_compat_l; [apply IZR_le; lia|exact S2].
  - unfold big. change (IZR (2 ^ 50)) with (bpow radix2 50). rewrite <- bpow_plus. apply bpow_le. lia.
Qed.

Lemma big_1 : IZR (2 ^ 50) <= big.
Proof. unfold big. change (IZR (2 ^ 50)) with (bpow radix2 50). apply bpow_le. lia. Qed.

Ltac consts := pose proof s_pos; pose proof eta_s; pose proof big_s; pose proof eta_1; pose proof big_1;
  change (2 ^ 40)%Z with 1099511627776%Z in *; change (2 ^ 60)%Z with 1152921504606846976%Z in *;
  change (2 ^ 50)%Z with 1125899906842624%Z in *;
  assert (UU : u = / 9007199254740992) by reflexivity.

Lemma of_int_small z : (Z.abs z <= 2147483648)%Z -> is_finite (of_int z) = true /\ B2R (of_int z) = IZR z.
Proof. intros H. apply of_int_exact. lia. Qed.

Lemma half_near : near (fdiv (fg_cs g) (of_int 2)) (s / 2) (/ IZR (2 ^ 50) * s).
Proof.
  destruct (of_int_small 2 ltac:(lia)) as [F2 E2]. consts.
  pose proof (div_near (fg_cs g) (of_int 2) s 0 s (near_exact _ FS)) as D. rewrite E2 in D.
  specialize (D ltac:(lra)). rewrite (Rabs_pos_eq s) in D by lra.
  apply near_le with (1 := D ltac:(lra) ltac:(lra)). rewrite UU. lra.
Qed.

(** Both axes are treated alike: [o] is the origin, [n] the number of cells. *)
Section Axis.
Variable o : f64.
Let O := B2R o.
Hypothesis FO : is_finite o = true.
Hypothesis HO : Rabs O <= IZR (2 ^ 40) * s.
Variable n : Z.
Hypothesis N : (0 <= n <= INT_MAX)%Z.

Definition lo : f64 := fsub o (fdiv (fg_cs g) (of_int 2)).
Definition hi : f64 := fadd lo (fmul (fg_cs g) (of_int n)).

Lemma lo_near : near lo (O - s / 2) (/ IZR (2 ^ 12) * s).
Proof.
  consts. change (2 ^ 12)%Z with 4096%Z.
  pose proof (sub_near o (fdiv (fg_cs g) (of_int 2)) O (s / 2) 0 (/ IZR (2 ^ 50) * s) (1099511627786 * s)
    (near_exact _ FO) half_near) as D.
  change (2 ^ 50)%Z with 1125899906842624%Z in D.
  assert (Rabs (O - s / 2) <= 1099511627776 * s + s / 2).
  { apply Rle_trans with (1 := Rabs_triang _ _). rewrite Rabs_Ropp, (Rabs_pos_eq (s / 2)) by lra. lra. }
  apply near_le with (1 := D ltac:(lra) ltac:(lra)). rewrite UU. lra.
Qed.

Lemma count_near k : (0 <= k <= INT_MAX)%Z -> near (fmul (fg_cs g) (of_int k)) (s * IZR k) (/ IZR (2 ^ 20) * s)
  /\ 0 <= s * IZR k <= 2147483648 * s.
Proof.
  intros K. unfold INT_MAX in K. destruct (of_int_small k ltac:(lia)) as [F E]. consts. change (2 ^ 20)%Z with 1048576%Z.
  assert (P : 0 <= IZR k <= 2147483648) by (split; apply IZR_le; lia).
  assert (Q : 0 <= s * IZR k <= 2147483648 * s) by (split; nra).
  split; [|exact Q].
  pose proof (mul_near (fg_cs g) (of_int k) (2147483648 * s) FS F) as D. rewrite E in D. fold s in D.
  rewrite (Rabs_pos_eq (s * IZR k)) in D by lra.
  apply near_le with (1 := D ltac:(lra) ltac:(lra)). rewrite UU. lra.
Qed.

Lemma count_near' k : (0 <= k <= INT_MAX)%Z -> near (fmul (of_int k) (fg_cs g)) (s * IZR k) (/ IZR (2 ^ 20) * s).
Proof.
  intros K. unfold INT_MAX in K. destruct (of_int_small k ltac:(lia)) as [F E]. consts. change (2 ^ 20)%Z with 1048576%Z.
  assert (P : 0 <= IZR k <= 2147483648) by (split; apply IZR_le; lia).
  assert (Q : 0 <= s * IZR k <= 2147483648 * s) by (split; nra).
  pose proof (mul_near (of_int k) (fg_cs g) (2147483648 * s) F FS) as D. rewrite E in D. fold s in D.
  rewrite (Rmult_comm (IZR k)) in D.
  rewrite (Rabs_pos_eq (s * IZR k)) in D by lra.
  apply near_le with (1 := D ltac:(lra) ltac:(lra)). rewrite UU. lra.
Qed.

Lemma hi_near : near hi (O - s / 2 + s * IZR n) (/ IZR (2 ^ 10) * s).
Proof.
  consts. change (2 ^ 10)%Z with 1024%Z. destruct (count_near n N) as [C B].
  pose proof (add_near lo _ _ _ _ _ (2 * 1099511627776 * s) lo_near C) as D.
  change (2 ^ 12)%Z with 4096%Z in D. change (2 ^ 20)%Z with 1048576%Z in D.
  assert (Rabs (O - s / 2 + s * IZR n) <= 1099511627776 * s + s / 2 + 2147483648 * s).
  { apply Rle_trans with (1 := Rabs_triang _ _). rewrite (Rabs_pos_eq (s * IZR n)) by lra.
    assert (Rabs (O - s / 2) <= 1099511627776 * s + s / 2); [|lra].
    apply Rle_trans with (1 := Rabs_triang _ _). rewrite Rabs_Ropp, (Rabs_pos_eq (s / 2)) by lra. lra. }
  apply near_le with (1 := D ltac:(lra) ltac:(lra)). rewrite UU. lra.
Qed.

(** The centre of cell [k] counted from the origin. *)
Lemma centre_near k : (0 <= k <= INT_MAX)%Z ->
  near (fadd o (fmul (of_int k) (fg_cs g))) (O + s * IZR k) (/ IZR (2 ^ 10) * s)
  /\ O <= B2R (fadd o (fmul (of_int k) (fg_cs g))).
Proof.
  intros K. pose proof (count_near' k K) as C. destruct (count_near k K) as [_ B].
  consts. change (2 ^ 10)%Z with 1024%Z.
  pose proof (add_near o _ O _ 0 _ (2 * 1099511627776 * s) (near_exact _ FO) C) as D.
  change (2 ^ 20)%Z with 1048576%Z in *.
  assert (Rabs (O + s * IZR k) <= 1099511627776 * s + 2147483648 * s).
  { apply Rle_trans with (1 := Rabs_triang _ _). rewrite (Rabs_pos_eq (s * IZR k)) by lra. lra. }
  split.
  - apply near_le with (1 := D ltac:(lra) ltac:(lra)). rewrite UU. lra.
  - destruct C as [FC HC]. apply Rabs_le_inv in HC. apply add_ge; [exact FO|exact FC| |].
    + fold O. apply Rle_trans with (1 := Rabs_triang _ _). apply Rle_trans with (1099511627776 * s + 2 * 2147483648 * s); [|lra].
      apply Rplus_le_compat; [exact HO|]. apply Rabs_le. lra.
    + unfold INT_MAX in K. destruct (of_int_small k ltac:(lia)) as [F E].
      assert (P : 0 <= IZR k) by (apply IZR_le; lia).
      apply mul_ge0; [exact F|exact FS| |]; rewrite E; fold s; [rewrite (Rmult_comm (IZR k)), Rabs_pos_eq by lra; lra|].
      apply Rmult_le_pos; lra.
Qed.

(** A point at least 1/256 of a cell away from the edges of cell [k]. *)
Variable x : f64.
Variable k : Z.
Hypothesis Fx : is_finite x = true.
Hypothesis K : (0 <= k < n)%Z.
Hypothesis In : Rabs (B2R x - (O + s * IZR k)) <= (/ 2 - / 256) * s.

Lemma k_bounds : 0 <= s * IZR k <= 2147483648 * s /\ s * IZR k + s <= s * IZR n /\ s * IZR n <= 2147483648 * s.
Proof.
  consts. unfold INT_MAX in N. assert (0 <= IZR k) by (apply IZR_le; lia).
  assert (IZR k + 1 <= IZR n) by (rewrite <- plus_IZR; apply IZR_le; lia).
  assert (IZR n <= 2147483648) by (apply IZR_le; lia). nra.
Qed.

Lemma below_hi : flt hi x = false.
Proof.
  destruct hi_near as [Fh Hh]. rewrite flt_R by assumption. apply Rlt_bool_false.
  apply Rabs_le_inv in Hh. pose proof (Rabs_le_inv _ _ In). destruct k_bounds as (B1 & B2 & B3). consts.
  change (2 ^ 10)%Z with 1024%Z in Hh. lra.
Qed.

Lemma above_lo : flt x lo = false.
Proof.
  destruct lo_near as [Fh Hh]. rewrite flt_R by assumption. apply Rlt_bool_false.
  apply Rabs_le_inv in Hh. pose proof (Rabs_le_inv _ _ In). destruct k_bounds as (B1 & B2 & B3). consts.
  change (2 ^ 12)%Z with 4096%Z in Hh. lra.
Qed.

Lemma div_s a b : a = b * s -> a / s = b.
Proof. intros ->. pose proof s_pos. field. lra. Qed.

(** The division by the cell size of a difference within 1/512 cell of [d]. *)
Lemma quotient_int a d j : near a d (/ 512 * s) -> (0 <= j <= INT_MAX)%Z ->
  IZR j * s + / 256 * s <= d -> d <= IZR j * s + s - / 256 * s -> f_int (fdiv a (fg_cs g)) = Ok j.
Proof.
  intros Na J D1 D2. consts. assert (Bj : 0 <= IZR j <= 2147483648) by (unfold INT_MAX in J; split; apply IZR_le; lia).
  assert (I : / s * s = 1) by (field; lra). assert (IP : 0 < / s) by (apply Rinv_0_lt_compat; lra).
  set (q := d / s). assert (Q : d = q * s) by (unfold q; field; lra).
  assert (Q1 : IZR j + / 256 <= q) by (apply Rmult_le_reg_r with s; lra).
  assert (Q2 : q <= IZR j + 1 - / 256) by (apply Rmult_le_reg_r with s; lra).
  pose proof (div_near a (fg_cs g) d (/ 512 * s) (2147483648 + 2) Na) as D. fold s in D.
  assert (E5 : / 512 * s / s = / 512) by (field; lra). rewrite E5 in D.
  assert (E6 : Rabs d / s = q). { rewrite Rabs_pos_eq by nra. reflexivity. }
  rewrite E6 in D. fold q in D. destruct (D ltac:(lra) ltac:(lra) ltac:(lra)) as [F Hq]. rewrite UU in Hq.
  apply Rabs_le_inv in Hq. apply f_int_between; [exact F| | |exact J].
  - lra.
  - rewrite plus_IZR. lra.
Qed.

Lemma from_lo : f_int (fdiv (fsub x lo) (fg_cs g)) = Ok k.
Proof.
  pose proof (sub_near x lo (B2R x) (O - s / 2) 0 _ (4294967296 * s) (near_exact _ Fx) lo_near) as D.
  pose proof (Rabs_le_inv _ _ In) as I. destruct k_bounds as (B1 & B2 & B3). consts. change (2 ^ 12)%Z with 4096%Z in *.
  rewrite (Rabs_pos_eq (B2R x - (O - s / 2))) in D by lra.
  apply quotient_int with (d := B2R x - (O - s / 2)).
  - apply near_le with (1 := D ltac:(lra) ltac:(lra)). rewrite UU. lra.
  - unfold INT_MAX in *. lia.
  - lra.
  - lra.
Qed.

Lemma from_hi : f_int (fdiv (fsub hi x) (fg_cs g)) = Ok (n - k - 1)%Z.
Proof.
  pose proof (sub_near hi x (O - s / 2 + s * IZR n) (B2R x) _ 0 (4294967296 * s) hi_near (near_exact _ Fx)) as D.
  pose proof (Rabs_le_inv _ _ In) as I. destruct k_bounds as (B1 & B2 & B3). consts. change (2 ^ 10)%Z with 1024%Z in *.
  rewrite (Rabs_pos_eq (O - s / 2 + s * IZR n - B2R x)) in D by lra.
  apply quotient_int with (d := O - s / 2 + s * IZR n - B2R x).
  - apply near_le with (1 := D ltac:(lra) ltac:(lra)). rewrite UU. lra.
  - unfold INT_MAX in *. lia.
  - rewrite !minus_IZR. lra.
  - rewrite !minus_IZR. lra.
Qed.
End Axis.
End Geo.

(** Near -9999 doubles are 2^-39 apart: only -9999 itself is taken as the marker. *)
Lemma marker x : is_finite x = true -> B2R x <> -9999 -> FloatEqual x (of_int (-9999)) = false.
Proof.
  intros F N. destruct (FloatEqual x (of_int (-9999))) eqn:E; [|reflexivity]. exfalso.
  destruct (of_int_exact (-9999) ltac:(lia)) as [F9 E9].
  apply FloatEqual_close in E; [|exact F|exact F9]. rewrite E9 in E.
  assert (T : tiny < bpow radix2 (-40)).
  { rewrite tiny_val. replace (bpow radix2 (-40)) with (bpow radix2 119 * bpow radix2 (-159)) by (rewrite <- bpow_plus; reflexivity).
    apply Rmult_lt_compat_r; [apply bpow_gt_0|]. change (bpow radix2 119) with (IZR (2 ^ 119)). apply IZR_lt. reflexivity. }
  assert (T1 : bpow radix2 (-40) < 1). { change 1 with (bpow radix2 0). apply bpow_lt. lia. }
  pose proof (Rabs_def2 _ _ E) as [L1 L2].
  pose proof (fmt_B2R x) as G. unfold generic_format, F2R in G. cbn [Fnum Fexp] in G.
  assert (C : cexp radix2 (FLT_exp (-1074) 53) (B2R x) = (-39)%Z).
  { unfold cexp. rewrite (mag_unique radix2 (B2R x) 14).
    - reflexivity.
    - change (bpow radix2 (14 - 1)) with 8192. change (bpow radix2 14) with 16384. rewrite Rabs_left by lra. lra. }
  rewrite C in G. set (m := Ztrunc (scaled_mantissa radix2 (FLT_exp (-1074) 53) (B2R x))) in G.
  assert (P : 0 < bpow radix2 (-39)) by apply bpow_gt_0.
  assert (D : B2R x - -9999 = IZR (m + 9999 * 2 ^ 39) * bpow radix2 (-39)).
  { rewrite plus_IZR, mult_IZR. rewrite G at 1. change (bpow radix2 (-39)) with (/ IZR (2 ^ 39)).
    change (2 ^ 39)%Z with 549755813888%Z. lra. }
  destruct (Z.eq_dec (m + 9999 * 2 ^ 39) 0) as [Z0|Z0].
  - rewrite Z0 in D. apply N. lra.
  - rewrite D, Rabs_mult, (Rabs_pos_eq (bpow _ _)) in E by lra. rewrite <- abs_IZR in E.
    assert (1 <= IZR (Z.abs (m + 9999 * 2 ^ 39))) by (apply IZR_le; lia).
    assert (bpow radix2 (-40) < bpow radix2 (-39)) by (apply bpow_lt; lia).
    assert (1 * bpow radix2 (-39) <= IZR (Z.abs (m + 9999 * 2 ^ 39)) * bpow radix2 (-39)) by (apply Rmult_le_compat_r; lra).
    lra.
Qed.

(** * The two functions *)
Lemma fposition g row col x y : sane g -> well_inside g row col x y ->
  B2R (fg_xll g) <= B2R x -> B2R (fg_yll g) <= B2R y -> fPositionByCoordinate g x y = Ok (row, col).
Proof.
  intros (FX & FY & FS & [S1 S2] & HX & HY & NR & NC) (R & C & Fx & Fy & Ix & Iy) Gx Gy.
  unfold fPositionByCoordinate.
  change (fx_max g) with (hi g (fg_xll g) (fg_cols g)). change (fy_max g) with (hi g (fg_yll g) (fg_rows g)).
  change (fx_min g) with (lo g (fg_xll g)).
  rewrite (below_hi g FS S1 S2 (fg_xll g) FX HX (fg_cols g) NC x col Fx C Ix).
  rewrite (below_hi g FS S1 S2 (fg_yll g) FY HY (fg_rows g) NR y (fg_rows g - row - 1) Fy ltac:(lia) Iy).
  rewrite !flt_R by assumption. rewrite !Rlt_bool_false by assumption. cbn [orb].
  rewrite (from_hi g FS S1 S2 (fg_yll g) FY HY (fg_rows g) NR y (fg_rows g - row - 1) Fy ltac:(lia) Iy).
  rewrite (from_lo g FS S1 S2 (fg_xll g) FX HX (fg_cols g) NC x col Fx C Ix).
  cbn [obind]. do 2 f_equal. lia.
Qed.

Lemma flocate g row col x y : sane g -> B2R (fg_xll g) <> -9999 -> B2R (fg_yll g) <> -9999 -> well_inside g row col x y ->
  fLocate g x y = Ok (Some (row, col)).
Proof.
  intros (FX & FY & FS & [S1 S2] & HX & HY & NR & NC) MX MY (R & C & Fx & Fy & Ix & Iy).
  unfold fLocate. pose proof (bpow_gt_0 radix2 (-900)) as P.
  rewrite !marker by (assumption || lra). cbn [orb].
  replace (fg_rows g <? 0)%Z with false by (symmetry; apply Z.ltb_ge; lia).
  replace (fg_cols g <? 0)%Z with false by (symmetry; apply Z.ltb_ge; lia). cbn [orb].
  change (fx_max g) with (hi g (fg_xll g) (fg_cols g)). change (fy_max g) with (hi g (fg_yll g) (fg_rows g)).
  change (fx_min g) with (lo g (fg_xll g)). change (fy_min g) with (lo g (fg_yll g)).
  rewrite (below_hi g FS S1 S2 (fg_xll g) FX HX (fg_cols g) NC x col Fx C Ix).
  rewrite (below_hi g FS S1 S2 (fg_yll g) FY HY (fg_rows g) NR y (fg_rows g - row - 1) Fy ltac:(lia) Iy).
  rewrite (above_lo g FS S1 S2 (fg_xll g) FX HX (fg_cols g) NC x col Fx C Ix).
  rewrite (above_lo g FS S1 S2 (fg_yll g) FY HY (fg_rows g) NR y (fg_rows g - row - 1) Fy ltac:(lia) Iy).
  cbn [orb].
  rewrite (from_hi g FS S1 S2 (fg_yll g) FY HY (fg_rows g) NR y (fg_rows g - row - 1) Fy ltac:(lia) Iy).
  rewrite (from_lo g FS S1 S2 (fg_xll g) FX HX (fg_cols g) NC x col Fx C Ix).
  cbn [obind]. do 3 f_equal. lia.
Qed.

Lemma fcentre g row col : sane g -> (0 <= row < fg_rows g)%Z -> (0 <= col < fg_cols g)%Z ->
  well_inside g row col (fst (fCoordinate g row col)) (snd (fCoordinate g row col)) /\
  B2R (fg_xll g) <= B2R (fst (fCoordinate g row col)) /\ B2R (fg_yll g) <= B2R (snd (fCoordinate g row col)).
Proof.
  intros (FX & FY & FS & [S1 S2] & HX & HY & NR & NC) R C. cbn [fCoordinate fst snd].
  destruct (centre_near g FS S1 S2 (fg_xll g) FX HX col ltac:(lia)) as [[F1 N1] G1].
  destruct (centre_near g FS S1 S2 (fg_yll g) FY HY (fg_rows g - row - 1) ltac:(lia)) as [[F2 N2] G2].
  pose proof (bpow_gt_0 radix2 (-900)) as P. change (2 ^ 10)%Z with 1024%Z in *.
  unfold well_inside. split; [|split; [exact G1|exact G2]].
  split; [exact R|]. split; [exact C|]. split; [exact F1|]. split; [exact F2|]. split; lra.
Qed.
