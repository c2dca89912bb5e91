(** The fast logarithm: the result. *)
From Coq Require Import ZArith Reals Lra Lia Bool Psatz List.
From Coquelicot Require Import Rcomplements.
From Flocq Require Import Core BinarySingleNaN.
From Verif Require Import Base FloatModel MongoModel CellModel FastModel FastReal FastRound FastBits FastSqrt FastLn.
Open Scope R_scope.

Section Tail.
Variables prec emax : Z.
Variable Hp : FLX.Prec_gt_0 prec.
Variable He : Prec_lt_emax prec emax.
Notation flo := (binary_float prec emax).
Notation u := (ulp1 prec).
Notation most := (most emax).
Notation mul := (mul prec emax Hp He).
Notation add := (add prec emax Hp He).
Variable Hu : u <= 1 / 1000000.
Variable Hleast : least emax <= 1.

Lemma ln_tail : forall (ef r L : flo) (e N f c0 B eps dl : R),
  is_finite ef = true -> B2R ef = e -> Rabs e <= N -> 1 <= N -> N <= 2000 -> N + 20 <= most ->
  115 / 100 <= c0 <= 116 / 100 -> 1 <= f <= 2 ->
  is_finite r = true -> Rabs (B2R r - cubic c0 f) <= eps -> eps <= 1 / 10 ->
  is_finite L = true -> Rabs (B2R L - ln 2) <= dl -> dl <= 1 / 1000 ->
  Rabs ((cubic c0 f - 1) * ln 2 - ln f) <= B ->
  Rabs (B2R (mul (add ef r) L) - ((e + 1) * ln 2 + ln f)) <= B + eps + 2 * (N + 10) * u + (N + 10) * dl
  /\ is_finite (mul (add ef r) L) = true.
Proof using Hu Hleast.
  intros ef r L e N f c0 B eps dl Fe Ve HN N1 N2 NM Hc Hf Fr Hr Heps FL HL Hdl HB.
  assert (Pu := ulp1_pos prec). assert (L2 := ln2_bounds).
  assert (Bc := cubic_bound c0 f Hc Hf).
  apply Rabs_le_inv in HN.
  assert (Hr' := Hr). apply Rabs_le_inv in Hr'. assert (HL' := HL). apply Rabs_le_inv in HL'.
  destruct (add_w prec emax Hp He ef r (N + 7) Fe Fr) as (V1 & F1); [rewrite Ve; apply Rabs_le; lra|lra|].
  set (s := add ef r) in *. rewrite Ve in V1. set (e1 := B2R s - (e + B2R r)) in *.
  assert (Bu : (N + 7) * u <= 1 / 10) by nra.
  assert (V1' := V1). apply Rabs_le_inv in V1'.
  assert (Bs : - (N + 8) <= B2R s <= N + 8) by (unfold e1 in V1'; lra).
  assert (BL : 69 / 100 <= B2R L <= 70 / 100) by lra.
  destruct (mul_w prec emax Hp He Hleast s L (N + 8) F1 FL) as (V2 & F2).
  { rewrite Rabs_mult, (Rabs_pos_eq (B2R L)) by lra. assert (Rabs (B2R s) <= N + 8) by (apply Rabs_le; lra).
    assert (A := Rabs_pos (B2R s)). nra. }
  { lra. }
  split; [|exact F2]. set (p := mul s L) in *. set (e2 := B2R p - B2R s * B2R L) in *.
  replace (B2R p - ((e + 1) * ln 2 + ln f))
    with (((cubic c0 f - 1) * ln 2 - ln f) + (B2R r - cubic c0 f) * ln 2 + (e + B2R r) * (B2R L - ln 2) + e1 * B2R L + e2)
    by (unfold e2, e1; ring).
  assert (T1 : Rabs ((B2R r - cubic c0 f) * ln 2) <= eps * 1).
  { rewrite Rabs_mult. apply Rmult_le_compat; try apply Rabs_pos; [exact Hr|apply Rabs_le; lra]. }
  assert (T2 : Rabs ((e + B2R r) * (B2R L - ln 2)) <= (N + 7) * dl).
  { rewrite Rabs_mult. apply Rmult_le_compat; try apply Rabs_pos; [apply Rabs_le; lra|exact HL]. }
  assert (T3 : Rabs (e1 * B2R L) <= (N + 7) * u * (70 / 100)).
  { rewrite Rabs_mult. apply Rmult_le_compat; try apply Rabs_pos; [exact V1|apply Rabs_le; lra]. }
  assert (0 <= dl) by (eapply Rle_trans; [apply Rabs_pos|exact HL]).
  apply Rabs_le. apply Rabs_le_inv in HB, T1, T2, T3, V2.
  assert (0 <= N * u) by nra. assert (0 <= N * dl) by nra. lra.
Qed.
End Tail.

Definition num64 (m : positive) (e : Z) (H : SpecFloat.bounded 53 1024 m e = true) : f64 := B754_finite false m e H.
Definition num32 (m : positive) (e : Z) (H : SpecFloat.bounded 24 128 m e = true) : f32 := B754_finite false m e H.

Ltac val c m e b := let H := fresh in
  assert (H : c = m) by (apply B2SF_inj; vm_compute; reflexivity); rewrite H; unfold num64, num32; cbn [B2R];
  unfold F2R; cbn [Fnum Fexp SpecFloat.cond_Zopp]; change (bpow radix2 e) with (/ IZR b); clear H.

Theorem ln64_ok : forall z : f64, is_finite z = true -> bpow radix2 (-1022) <= B2R z ->
  is_finite (ApprLn64 z) = true /\ Rabs (B2R (ApprLn64 z) - ln (B2R z)) <= 46 / 100000.
Proof.
  intros z Fz Lz.
  destruct (bits64_normal z Fz Lz) as (E & M & HE & HM & Hb & Vz).
  assert (D1 : ((bits64 z / 2 ^ 52) mod 2 ^ 11 = E)%Z).
  { rewrite Hb, Z.div_add_l, (Z.div_small M) by lia. rewrite Z.add_0_r. apply Z.mod_small. lia. }
  assert (D2 : (bits64 z mod 2 ^ 52 + 0x3ff0000000000000 = 1023 * 2 ^ 52 + M)%Z).
  { rewrite Hb, Z.add_comm, (Z.add_comm _ M), Z.mod_add, Z.mod_small by lia. lia. }
  destruct (of_bits64_normal 1023 M) as (Vf & Ff); [lia|lia|].
  unfold ApprLn64. cbv zeta. rewrite D1, D2. set (f := of_bits64 (1023 * 2 ^ 52 + M)) in *.
  change (1023 - 1075)%Z with (-52)%Z in Vf.
  assert (P52 : bpow radix2 52 * bpow radix2 (-52) = 1) by (rewrite <- bpow_plus; reflexivity).
  assert (Rf : 1 <= B2R f <= 2).
  { rewrite Vf, plus_IZR. change (IZR (2 ^ 52)) with (bpow radix2 52).
    assert (Pb := bpow_gt_0 radix2 (-52)). assert (0 <= IZR M) by (apply IZR_le; lia).
    assert (IZR M <= bpow radix2 52) by (change (bpow radix2 52) with (IZR (2 ^ 52)); apply IZR_le; lia). nra. }
  assert (Lnz : ln (B2R z) = (IZR (E - 1024) + 1) * ln 2 + ln (B2R f)).
  { rewrite Vz. replace (E - 1075)%Z with (-52 + (E - 1023))%Z by lia. rewrite bpow_plus, <- Rmult_assoc, <- Vf.
    rewrite ln_mult; [|lra|apply bpow_gt_0]. rewrite bpow_powerRZ, powerRZ_Rpower by (cbn; lra). unfold Rpower. rewrite ln_exp.
    change (IZR radix2) with 2. replace (E - 1023)%Z with (E - 1024 + 1)%Z by lia. rewrite plus_IZR. ring. }
  assert (U : ulp1 53 <= 12 / 100000000000000000) by (unfold ulp1; change (bpow radix2 (- (53))) with (/ 9007199254740992); lra).
  assert (Pu := ulp1_pos 53). assert (L2 := ln2_bounds).
  assert (Ls : least 1024 <= 1) by (unfold least; change 1 with (bpow radix2 0); apply bpow_le; lia).
  assert (Ms : 4096 <= most 1024).
  { unfold most. apply Rle_trans with (bpow radix2 12); [change (bpow radix2 12) with 4096; lra|apply bpow_le; lia]. }
  destruct (horner_ok 53 1024 prec_gt_0_53 prec_lt_53 ltac:(lra) Ls
    (lit64 1582487026083649643648 22) (lit64 10518750217176431040285 22) (lit64 30478841468943745615315 22) (lit64 11536207104929913242752 22)
    (115362071 / 100000000)) with (f := f) as (Hr & Fr); try assumption; try lra.
  { repeat split. }
  { val (lit64 1582487026083649643648 22) (num64 5701510384791175 (-55) eq_refl) (-55)%Z 36028797018963968%Z. apply Rabs_le; lra. }
  { val (lit64 10518750217176431040285 22) (num64 4737223955847910 (-52) eq_refl) (-52)%Z 4503599627370496%Z. apply Rabs_le; lra. }
  { val (lit64 30478841468943745615315 22) (num64 6863224954110974 (-51) eq_refl) (-51)%Z 2251799813685248%Z. apply Rabs_le; lra. }
  { val (lit64 11536207104929913242752 22) (num64 5195445801903123 (-52) eq_refl) (-52)%Z 4503599627370496%Z. apply Rabs_le; lra. }
  unfold horner in Hr, Fr.
  set (r := sub64 (mul64 _ f) _) in *.
  destruct (int_to_exact 53 1024 prec_gt_0_53 prec_lt_53 (E - 1024)) as (Ve & Fe); [lia|].
  change (int_to 53 1024 prec_gt_0_53 prec_lt_53 (E - 1024)) with (of_int (E - 1024)) in Ve, Fe.
  assert (VL : Rabs (B2R M_LN2 - ln 2) <= 2 / 10000000000 /\ is_finite M_LN2 = true).
  { split; [|vm_compute; reflexivity]. val M_LN2 (num64 6243314768165359 (-53) eq_refl) (-53)%Z 9007199254740992%Z. apply Rabs_le; lra. }
  destruct (ln_tail 53 1024 prec_gt_0_53 prec_lt_53 ltac:(lra) Ls (of_int (E - 1024)) r M_LN2 (IZR (E - 1024)) 1024 (B2R f)
    (115362071 / 100000000) (450 / 1000000 + 3 / 10000000) (36 * ulp1 53 + 3 / 1000000) (2 / 10000000000)) as (T & F);
    try assumption; try lra; try (destruct VL; assumption).
  { rewrite <- abs_IZR. apply IZR_le. lia. }
  { apply cubic_ln; [lra|exact cubic64|exact Rf]. }
  split; [exact F|]. rewrite Lnz. eapply Rle_trans; [exact T|]. lra.
Qed.

Theorem ln32_ok : forall z : f32, is_finite z = true -> bpow radix2 (-126) <= B2R z ->
  is_finite (ApprLn32 z) = true /\ Rabs (B2R (ApprLn32 z) - ln (B2R z)) <= 49 / 100000.
Proof.
  intros z Fz Lz.
  destruct (bits32_normal z Fz Lz) as (E & M & HE & HM & Hb & Vz).
  assert (D1 : ((bits32 z / 2 ^ 23) mod 2 ^ 8 = E)%Z).
  { rewrite Hb, Z.div_add_l, (Z.div_small M) by lia. rewrite Z.add_0_r. apply Z.mod_small. lia. }
  assert (D2 : (bits32 z mod 2 ^ 23 + 0x3f800000 = 127 * 2 ^ 23 + M)%Z).
  { rewrite Hb, Z.add_comm, (Z.add_comm _ M), Z.mod_add, Z.mod_small by lia. lia. }
  destruct (of_bits32_normal 127 M) as (Vf & Ff); [lia|lia|].
  unfold ApprLn32. cbv zeta. rewrite D1, D2. set (f := of_bits32 (127 * 2 ^ 23 + M)) in *.
  change (127 - 150)%Z with (-23)%Z in Vf.
  assert (P52 : bpow radix2 23 * bpow radix2 (-23) = 1) by (rewrite <- bpow_plus; reflexivity).
  assert (Rf : 1 <= B2R f <= 2).
  { rewrite Vf, plus_IZR. change (IZR (2 ^ 23)) with (bpow radix2 23).
    assert (Pb := bpow_gt_0 radix2 (-23)). assert (0 <= IZR M) by (apply IZR_le; lia).
    assert (IZR M <= bpow radix2 23) by (change (bpow radix2 23) with (IZR (2 ^ 23)); apply IZR_le; lia). nra. }
  assert (Lnz : ln (B2R z) = (IZR (E - 128) + 1) * ln 2 + ln (B2R f)).
  { rewrite Vz. replace (E - 150)%Z with (-23 + (E - 127))%Z by lia. rewrite bpow_plus, <- Rmult_assoc, <- Vf.
    rewrite ln_mult; [|lra|apply bpow_gt_0]. rewrite bpow_powerRZ, powerRZ_Rpower by (cbn; lra). unfold Rpower. rewrite ln_exp.
    change (IZR radix2) with 2. replace (E - 127)%Z with (E - 128 + 1)%Z by lia. rewrite plus_IZR. ring. }
  assert (U : ulp1 24 <= 59605 / 1000000000000) by (unfold ulp1; change (bpow radix2 (- (24))) with (/ 16777216); lra).
  assert (Pu := ulp1_pos 24). assert (L2 := ln2_bounds).
  assert (Ls : least 128 <= 1) by (unfold least; change 1 with (bpow radix2 0); apply bpow_le; lia).
  assert (Ms : 4096 <= most 128).
  { unfold most. apply Rle_trans with (bpow radix2 12); [change (bpow radix2 12) with 4096; lra|apply bpow_le; lia]. }
  destruct (horner_ok 24 128 prec_gt_0_24 prec_lt_24 ltac:(lra) Ls
    (lit32 15824870 8) (lit32 105187502 8) (lit32 304788415 8) (lit32 115360271 8)
    (115360271 / 100000000)) with (f := f) as (Hr & Fr); try assumption; try lra.
  { repeat split. }
  { val (lit32 15824870 8) (num32 10619890 (-26) eq_refl) (-26)%Z 67108864%Z. apply Rabs_le; lra. }
  { val (lit32 105187502 8) (num32 8823767 (-23) eq_refl) (-23)%Z 8388608%Z. apply Rabs_le; lra. }
  { val (lit32 304788415 8) (num32 12783753 (-22) eq_refl) (-22)%Z 4194304%Z. apply Rabs_le; lra. }
  { val (lit32 115360271 8) (num32 9677121 (-23) eq_refl) (-23)%Z 8388608%Z. apply Rabs_le; lra. }
  unfold horner in Hr, Fr.
  set (r := sub32 (mul32 _ f) _) in *.
  destruct (int_to_exact 24 128 prec_gt_0_24 prec_lt_24 (E - 128)) as (Ve & Fe); [lia|].
  change (int_to 24 128 prec_gt_0_24 prec_lt_24 (E - 128)) with (f32_of_int (E - 128)) in Ve, Fe.
  assert (VL : Rabs (B2R (f32_of_f64 M_LN2) - ln 2) <= 3 / 1000000000 /\ is_finite (f32_of_f64 M_LN2) = true).
  { split; [|vm_compute; reflexivity]. val (f32_of_f64 M_LN2) (num32 11629080 (-24) eq_refl) (-24)%Z 16777216%Z. apply Rabs_le; lra. }
  destruct (ln_tail 24 128 prec_gt_0_24 prec_lt_24 ltac:(lra) Ls (f32_of_int (E - 128)) r (f32_of_f64 M_LN2) (IZR (E - 128)) 128 (B2R f)
    (115360271 / 100000000) (465 / 1000000 + 3 / 10000000) (36 * ulp1 24 + 3 / 1000000) (3 / 1000000000)) as (T & F);
    try assumption; try lra; try (destruct VL; assumption).
  { rewrite <- abs_IZR. apply IZR_le. lia. }
  { apply cubic_ln; [lra|exact cubic32|exact Rf]. }
  split; [exact F|]. rewrite Lnz. eapply Rle_trans; [exact T|]. lra.
Qed.
