(** The fast power: accuracy, and where it fails. *)
From Coq Require Import ZArith Reals Lra Lia Bool Psatz List.
From Flocq Require Import Core BinarySingleNaN Bits.
From Flocq Require Binary.
From Verif Require Import Base FloatModel TypeModel MongoModel CellModel CellProofs2 FastModel FastTable FastReal FastRound FastBits FastSqrt FastLn FastLn2 FastExp2 FastExp3 FastPow FastPow2.
Import ListNotations.
Open Scope R_scope.
Open Scope outcome_scope.

Lemma lor_fields : forall E m, (0 <= m < 2 ^ 23)%Z -> Z.lor (E * 2 ^ 23) m = (E * 2 ^ 23 + m)%Z.
Proof.
  intros E m Hm. assert (L : Z.land (E * 2 ^ 23) m = 0%Z).
  { apply Z.bits_inj'. intros n Hn. rewrite Z.land_spec, Z.bits_0. destruct (Z.lt_ge_cases n 23).
    - rewrite Z.mul_pow2_bits_low by lia. reflexivity.
    - rewrite <- (Z.mod_small m (2 ^ 23)) by lia. rewrite Z.mod_pow2_bits_high by lia. apply andb_false_r. }
  rewrite <- Z.lxor_lor by exact L. symmetry. now apply Z.add_nocarry_lxor.
Qed.

Lemma to_uint_ok : forall t : f32, is_finite t = true -> 0 <= B2R t < IZR (2 ^ 32) -> to_uint32 t = Ok (Zfloor (B2R t)).
Proof.
  intros t Ft H. unfold to_uint32, cast_int. destruct (widen_exact t) as (F & V). rewrite F, Ft, Btrunc_real, V, Ztrunc_floor by lra.
  assert (0 <= Zfloor (B2R t))%Z by (apply Zfloor_lub; lra).
  assert (Zfloor (B2R t) < 2 ^ 32)%Z by (apply lt_IZR; eapply Rle_lt_trans; [apply Zfloor_lb|lra]).
  replace ((0 <=? _) && (_ <=? _))%Z with true by lia. reflexivity.
Qed.
Lemma to_uint_big : forall t : f32, is_finite t = true -> IZR (2 ^ 32) <= B2R t -> to_uint32 t = UB.
Proof.
  intros t Ft H. unfold to_uint32, cast_int. destruct (widen_exact t) as (F & V). assert (0 < IZR (2 ^ 32)) by (apply IZR_lt; reflexivity).
  rewrite F, Ft, Btrunc_real, V, Ztrunc_floor by lra.
  assert (2 ^ 32 <= Zfloor (B2R t))%Z by (apply Zfloor_lub; lra).
  replace ((0 <=? _) && (_ <=? _))%Z with false by lia. reflexivity.
Qed.
Lemma to_uint_neg : forall t : f32, is_finite t = true -> B2R t <= -1 -> to_uint32 t = UB.
Proof.
  intros t Ft H. unfold to_uint32, cast_int. destruct (widen_exact t) as (F & V).
  rewrite F, Ft, Btrunc_real, V, Ztrunc_ceil by lra.
  assert (Zceil (B2R t) <= -1)%Z by (apply Zceil_glb; lra).
  replace ((0 <=? _) && (_ <=? _))%Z with false by lia. reflexivity.
Qed.

Lemma table_length : length pow_mantissa_table = 2048%nat.
Proof. vm_compute. reflexivity. Qed.

(** The lookup, once the argument is in range. *)
Lemma lookup_ok : forall b l : f32, is_finite (arg b l) = true -> 0 <= B2R (arg b l) < IZR (2 ^ 32) ->
  exists E j m, (0 <= E < 512)%Z /\ (0 <= j < 2048)%Z /\ nth_error pow_mantissa_table (Z.to_nat j) = Some m /\ (0 <= m < 2 ^ 23)%Z
  /\ pow_lookup b l = Ok (of_bits32 (E * 2 ^ 23 + m))
  /\ IZR E + IZR j / 2048 <= B2R (arg b l) / 8388608 < IZR E + (IZR j + 1) / 2048.
Proof.
  intros b l F H. unfold pow_lookup. fold (arg b l). rewrite to_uint_ok by assumption. cbn [obind].
  set (t := B2R (arg b l)) in *. assert (Lb := Zfloor_lb t). assert (Ub := Zfloor_ub t).
  assert (I0 : (0 <= Zfloor t)%Z) by (apply Zfloor_lub; lra).
  assert (I1 : (Zfloor t < 2 ^ 32)%Z) by (apply lt_IZR; lra).
  set (i := Zfloor t) in *.
  set (E := (i / 2 ^ 23)%Z). set (j := (i mod 2 ^ 23 / 2 ^ 12)%Z).
  change (2 ^ (23 - 11))%Z with (2 ^ 12)%Z. fold j.
  assert (R1 := Z.div_mod i (2 ^ 23) ltac:(lia)). assert (R2 := Z.mod_pos_bound i (2 ^ 23) ltac:(lia)).
  assert (R3 := Z.div_mod (i mod 2 ^ 23) (2 ^ 12) ltac:(lia)). assert (R4 := Z.mod_pos_bound (i mod 2 ^ 23) (2 ^ 12) ltac:(lia)).
  fold E in R1. fold j in R3. fold E.
  change (2 ^ 23)%Z with 8388608%Z in *. change (2 ^ 12)%Z with 4096%Z in *. change (2 ^ 32)%Z with 4294967296%Z in *.
  assert (HE : (0 <= E < 512)%Z) by lia. assert (Hj : (0 <= j < 2048)%Z) by lia.
  destruct (nth_error pow_mantissa_table (Z.to_nat j)) as [m|] eqn:N.
  2:{ apply nth_error_None in N. rewrite table_length in N. exfalso. clear - N Hj. lia. }
  destruct (table_ok _ _ N) as (Hm & _).
  exists E, j, m. split; [exact HE|]. split; [exact Hj|]. split; [exact N|]. split; [exact Hm|]. split.
  - unfold aget. replace (j <? 0)%Z with false by lia. rewrite N. cbn [obind]. change 8388608%Z with (2 ^ 23)%Z. now rewrite lor_fields.
  - assert (Q : (E * 8388608 + j * 4096 <= i)%Z) by lia. assert (Q2 : (i + 1 <= E * 8388608 + (j + 1) * 4096)%Z) by lia.
    apply IZR_le in Q, Q2. rewrite plus_IZR, (mult_IZR E), (mult_IZR j) in Q. rewrite plus_IZR, (plus_IZR (E * _)), (mult_IZR E), (mult_IZR (j + 1)), (plus_IZR j) in Q2.
    clear - Q Q2 Lb Ub. split.
    + apply Rmult_le_reg_r with 8388608; [lra|]. unfold Rdiv. rewrite (Rmult_assoc t), Rinv_l by lra. lra.
    + apply Rmult_lt_reg_r with 8388608; [lra|]. unfold Rdiv at 1. rewrite Rmult_assoc, Rinv_l by lra. lra.
Qed.

Lemma core : forall b l : f32, is_finite b = true -> is_finite l = true -> Rabs (B2R b) <= 1000000 -> Rabs (B2R l) <= 100 ->
  Rabs (B2R b * B2R l) <= 865 / 10 ->
  exists r, pow_lookup b l = Ok r /\ is_finite r = true /\ 0 < B2R r /\ Rabs (ln (B2R r) - B2R b * B2R l) <= 3 / 10000.
Proof.
  intros b l Fb Fl Hb Hl Hw. destruct (arg_ok b l Fb Fl Hb Hl) as (F & V). set (w := B2R b * B2R l / ln 2) in *.
  assert (B := ln2_bounds). set (t := B2R (arg b l)) in *.
  assert (Wl : w * ln 2 = B2R b * B2R l) by (unfold w; field; lra).
  assert (Aw : Rabs w <= 1248 / 10).
  { apply Rmult_le_reg_r with (ln 2); [lra|]. rewrite <- (Rabs_pos_eq (ln 2)) at 1 by lra. rewrite <- Rabs_mult, Wl. lra. }
  assert (V' : Rabs (t - (w + 127) * 8388608) <= 8 / 100000 * 8388608) by lra. clear V.
  apply Rabs_le_inv in V', Aw.
  destruct (lookup_ok b l F) as (E & j & m & HE & Hj & N & Hm & P & Q).
  { fold t. change (IZR (2 ^ 32)) with 4294967296. lra. }
  fold t in Q. set (s := t / 8388608) in *. assert (St : t = s * 8388608) by (unfold s; field). rewrite St in V'. clearbody s.
  assert (Jr : 0 <= IZR j <= 2047) by (split; apply IZR_le; lia).
  assert (E1 : (0 < E)%Z) by (apply lt_IZR; lra). assert (E2 : (E < 254)%Z) by (apply lt_IZR; lra).
  destruct (of_bits32_normal E m) as (Vr & Fr); [lia|exact Hm|].
  exists (of_bits32 (E * 2 ^ 23 + m)). split; [exact P|]. split; [exact Fr|]. rewrite Vr.
  assert (Pm : 0 < IZR (2 ^ 23 + m)) by (apply IZR_lt; lia).
  split; [apply Rmult_lt_0_compat; [exact Pm|apply bpow_gt_0]|].
  destruct (table_ok _ _ N) as (_ & T). rewrite Z2Nat.id in T by lia.
  assert (P23 : 0 < IZR (2 ^ 23)) by (apply IZR_lt; reflexivity).
  assert (Lr : ln (IZR (2 ^ 23 + m) * bpow radix2 (E - 150)) = ln (IZR (2 ^ 23 + m) / IZR (2 ^ 23)) + (IZR E - 127) * ln 2).
  { replace (IZR (2 ^ 23 + m) * bpow radix2 (E - 150)) with (IZR (2 ^ 23 + m) / IZR (2 ^ 23) * bpow radix2 (E - 127)).
    - rewrite ln_mult; [|apply Rmult_lt_0_compat; [exact Pm|now apply Rinv_0_lt_compat]|apply bpow_gt_0].
      f_equal. rewrite bpow_exp, ln_exp, minus_IZR. reflexivity.
    - replace (E - 127)%Z with (23 + (E - 150))%Z by lia. rewrite bpow_plus. change (bpow radix2 23) with (IZR (2 ^ 23)). field. lra. }
  rewrite Lr, <- Wl. set (a := ln (IZR (2 ^ 23 + m) / IZR (2 ^ 23))) in *. clearbody a.
  replace (a + (IZR E - 127) * ln 2 - w * ln 2) with ((a - (2 * IZR j + 1) / 4096 * ln 2) + (IZR E + (2 * IZR j + 1) / 4096 - 127 - w) * ln 2) by field.
  assert (D : Rabs (IZR E + (2 * IZR j + 1) / 4096 - 127 - w) <= 1 / 4096 + 8 / 100000) by (apply Rabs_le; lra).
  eapply Rle_trans; [apply Rabs_triang|]. rewrite Rabs_mult, (Rabs_pos_eq (ln 2)) by lra.
  assert (Rabs (IZR E + (2 * IZR j + 1) / 4096 - 127 - w) * ln 2 <= (1 / 4096 + 8 / 100000) * (694 / 1000)) by (apply Rmult_le_compat; try lra; apply Rabs_pos).
  lra.
Qed.

(** Positive normal bases. *)
Lemma ln_range : forall a : f32, is_finite a = true -> bpow radix2 (-126) <= B2R a -> Rabs (ln (B2R a)) <= 89.
Proof.
  intros a Fa Ha. assert (B := ln2_bounds).
  assert (U : B2R a < bpow radix2 128). { assert (X := abs_B2R_lt_emax 24 128 a). eapply Rle_lt_trans; [apply Rle_abs|exact X]. }
  assert (P := bpow_gt_0 radix2 (-126)).
  assert (A1 : ln (bpow radix2 (-126)) <= ln (B2R a)).
  { destruct (Rle_lt_or_eq_dec _ _ Ha) as [X|X]; [left; apply ln_increasing; lra|rewrite X; lra]. }
  assert (A2 : ln (B2R a) < ln (bpow radix2 128)) by (apply ln_increasing; lra).
  rewrite bpow_exp, ln_exp in A1, A2. change (IZR radix2) with 2 in *. apply Rabs_le. lra.
Qed.

Theorem pow_ok : forall a b : f32, is_finite a = true -> bpow radix2 (-126) <= B2R a -> is_finite b = true ->
  Rabs (B2R b * ln (B2R a)) + Rabs (B2R b) / 1000 <= 86 ->
  exists r, ApprPow a b = Ok r /\ is_finite r = true /\ 0 < B2R r
  /\ Rabs (ln (B2R r) - B2R b * ln (B2R a)) <= 49 / 100000 * Rabs (B2R b) + 3 / 10000.
Proof.
  intros a b Fa Ha Fb H. destruct (ln32_ok a Fa Ha) as (Fl & Vl). assert (Rl := ln_range a Fa Ha).
  unfold ApprPow. set (l := ApprLn32 a) in *.
  assert (P1 := Rabs_pos (B2R b * ln (B2R a))). assert (P2 := Rabs_pos (B2R b)).
  assert (D : Rabs (B2R b * (B2R l - ln (B2R a))) <= 49 / 100000 * Rabs (B2R b)).
  { rewrite Rabs_mult, Rmult_comm. apply Rmult_le_compat_r; lra. }
  assert (E : B2R b * B2R l = B2R b * ln (B2R a) + B2R b * (B2R l - ln (B2R a))) by ring.
  destruct (core b l Fb Fl) as (r & R1 & R2 & R3 & R4).
  - lra.
  - apply Rabs_le. apply Rabs_le_inv in Vl, Rl. lra.
  - rewrite E. eapply Rle_trans; [apply Rabs_triang|]. lra.
  - exists r. repeat split; auto.
    replace (ln (B2R r) - B2R b * ln (B2R a)) with ((ln (B2R r) - B2R b * B2R l) + B2R b * (B2R l - ln (B2R a))) by ring.
    eapply Rle_trans; [apply Rabs_triang|]. lra.
Qed.

Lemma near : forall a b : f32, is_finite a = true -> bpow radix2 (-126) <= B2R a -> is_finite b = true ->
  is_finite (ApprLn32 a) = true /\ Rabs (B2R (ApprLn32 a)) <= 100
  /\ Rabs (B2R b * B2R (ApprLn32 a) - B2R b * ln (B2R a)) <= Rabs (B2R b) / 1000.
Proof.
  intros a b Fa Ha Fb. destruct (ln32_ok a Fa Ha) as (Fl & Vl). assert (Rl := ln_range a Fa Ha).
  split; [exact Fl|]. split; [apply Rabs_le; apply Rabs_le_inv in Vl, Rl; lra|].
  rewrite <- Rmult_minus_distr_l, Rabs_mult. assert (P := Rabs_pos (B2R b)).
  assert (Rabs (B2R b) * Rabs (B2R (ApprLn32 a) - ln (B2R a)) <= Rabs (B2R b) * (1 / 1000)) by (apply Rmult_le_compat_l; lra). lra.
Qed.

(** Results at least e^269: undefined. *)
Lemma core_big : forall b l : f32, is_finite b = true -> is_finite l = true -> Rabs (B2R b) <= 1000000 -> Rabs (B2R l) <= 100 ->
  268 <= B2R b * B2R l -> pow_lookup b l = UB.
Proof.
  intros b l Fb Fl Hb Hl H. destruct (arg_ok b l Fb Fl Hb Hl) as (F & V). set (w := B2R b * B2R l / ln 2) in *.
  assert (B := ln2_bounds). assert (Wl : w * ln 2 = B2R b * B2R l) by (unfold w; field; lra).
  assert (W : 386 <= w) by (apply Rmult_le_reg_r with (ln 2); [lra|]; rewrite Wl; lra).
  rewrite (Rabs_pos_eq w) in V by lra. apply Rabs_le_inv in V.
  unfold pow_lookup. fold (arg b l). rewrite to_uint_big; [reflexivity|exact F|]. change (IZR (2 ^ 32)) with 4294967296. lra.
Qed.
(** Results at most e^-89: undefined. *)
Lemma core_small : forall b l : f32, is_finite b = true -> is_finite l = true -> Rabs (B2R b) <= 1000000 -> Rabs (B2R l) <= 100 ->
  B2R b * B2R l <= - (881 / 10) -> pow_lookup b l = UB.
Proof.
  intros b l Fb Fl Hb Hl H. destruct (arg_ok b l Fb Fl Hb Hl) as (F & V). set (w := B2R b * B2R l / ln 2) in *.
  assert (B := ln2_bounds). assert (Wl : w * ln 2 = B2R b * B2R l) by (unfold w; field; lra).
  assert (W : w <= - (1271 / 10)) by (apply Rmult_le_reg_r with (ln 2); [lra|]; rewrite Wl; lra).
  rewrite (Rabs_left w) in V by lra. apply Rabs_le_inv in V.
  unfold pow_lookup. fold (arg b l). rewrite to_uint_neg; [reflexivity|exact F|]. lra.
Qed.

Lemma sign_bit : forall z, (2 ^ 31 <= z < 2 ^ 32)%Z -> Bltb (B754_zero false) (of_bits32 z) = false.
Proof.
  intros z Hz. unfold of_bits32, b32_of_bits, binary_float_of_bits.
  match goal with |- context [Binary.FF2B ?p ?e ?x ?H] => set (f := x); generalize H end. fold f.
  assert (S : match f with Binary.F754_zero s => s = true | Binary.F754_infinity s => s = true | Binary.F754_nan _ _ => True | Binary.F754_finite s _ _ => s = true end).
  { unfold f, binary_float_of_bits_aux, split_bits.
    replace (2 ^ 23 * 2 ^ 8 <=? z)%Z with true by lia.
    destruct (Zeq_bool _ 0).
    - destruct (z mod 2 ^ 23)%Z; auto.
    - destruct (Zeq_bool _ _); [destruct (z mod 2 ^ 23)%Z; auto|]. destruct (_ + _)%Z; auto. }
  clearbody f. intros H. destruct f as [s|s|s pl|s m e]; cbn; try rewrite S; reflexivity.
Qed.

(** Results between e^90 and e^266: never positive. *)
Lemma core_wrap : forall b l : f32, is_finite b = true -> is_finite l = true -> Rabs (B2R b) <= 1000000 -> Rabs (B2R l) <= 100 ->
  90 <= B2R b * B2R l <= 266 -> exists r, pow_lookup b l = Ok r /\ Bltb (B754_zero false) r = false.
Proof.
  intros b l Fb Fl Hb Hl H. destruct (arg_ok b l Fb Fl Hb Hl) as (F & V). set (w := B2R b * B2R l / ln 2) in *.
  assert (B := ln2_bounds). assert (Wl : w * ln 2 = B2R b * B2R l) by (unfold w; field; lra).
  assert (W : 1295 / 10 <= w <= 384) by (split; apply Rmult_le_reg_r with (ln 2); try lra; rewrite Wl; lra).
  rewrite (Rabs_pos_eq w) in V by lra. apply Rabs_le_inv in V. set (t := B2R (arg b l)) in *.
  destruct (lookup_ok b l F) as (E & j & m & HE & Hj & N & Hm & P & Q).
  { fold t. change (IZR (2 ^ 32)) with 4294967296. lra. }
  fold t in Q. set (s := t / 8388608) in *. assert (St : t = s * 8388608) by (unfold s; field). rewrite St in V. clearbody s.
  assert (Jr : 0 <= IZR j <= 2047) by (split; apply IZR_le; lia).
  assert (E1 : (255 < E)%Z) by (apply lt_IZR; lra).
  eexists. split; [exact P|]. apply sign_bit. lia.
Qed.
