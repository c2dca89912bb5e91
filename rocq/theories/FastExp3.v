(** The fast exponential for double and float. *)
From Coq Require Import ZArith Reals Lra Lia Bool Psatz List.
From Flocq Require Import Core BinarySingleNaN.
From Verif Require Import Base FloatModel MongoModel CellModel FastModel FastReal FastRound FastSqrt FastLn FastLn2 FastExp FastExp2.
Open Scope R_scope.

Definition neg64 (m : positive) (e : Z) (H : SpecFloat.bounded 53 1024 m e = true) : f64 := B754_finite true m e H.
Definition neg32 (m : positive) (e : Z) (H : SpecFloat.bounded 24 128 m e = true) : f32 := B754_finite true m e H.

Ltac value c m e b := let H := fresh in
  assert (H : c = m) by (apply B2SF_inj; vm_compute; reflexivity); rewrite H; unfold num64, num32, neg64, neg32; cbn [B2R];
  unfold F2R; cbn [Fnum Fexp SpecFloat.cond_Zopp Z.opp]; change (bpow radix2 e) with (/ IZR b); clear H.

Lemma u64 : ulp1 53 = / 9007199254740992. Proof. reflexivity. Qed.
Lemma u32 : ulp1 24 = / 16777216. Proof. reflexivity. Qed.

Ltac facts64 := try solve
  [ rewrite u64; lra | lia
  | repeat split; vm_compute; reflexivity ].
Ltac facts32 := try solve
  [ rewrite u32; lra | lia
  | repeat split; vm_compute; reflexivity ].

Lemma fin64 : is_finite (k1 _ _ exp64) = true /\ is_finite (k2 _ _ exp64) = true /\ is_finite (k3 _ _ exp64) = true
  /\ is_finite (k4 _ _ exp64) = true /\ is_finite (kln2 _ _ exp64) = true.
Proof. repeat split; vm_compute; reflexivity. Qed.
Lemma fin32 : is_finite (k1 _ _ exp32) = true /\ is_finite (k2 _ _ exp32) = true /\ is_finite (k3 _ _ exp32) = true
  /\ is_finite (k4 _ _ exp32) = true /\ is_finite (kln2 _ _ exp32) = true.
Proof. repeat split; vm_compute; reflexivity. Qed.

Lemma d1_64 : Rabs (B2R (k1 _ _ exp64) - - (9998684 / 10000000)) <= ulp1 53.
Proof. cbn [k1 exp64]. value a1 (neg64 9006013907319068 (-53) eq_refl) (-53)%Z 9007199254740992%Z. rewrite u64. apply Rabs_le; lra. Qed.
Lemma d2_64 : Rabs (B2R (k2 _ _ exp64) - 4982926 / 10000000) <= ulp1 53.
Proof. cbn [k2 exp64]. value a2 (num64 8976441470725902 (-54) eq_refl) (-54)%Z 18014398509481984%Z. rewrite u64. apply Rabs_le; lra. Qed.
Lemma d3_64 : Rabs (B2R (k3 _ _ exp64) - - (1595332 / 10000000)) <= ulp1 53.
Proof. cbn [k3 exp64]. value a3 (neg64 5747789280585782 (-55) eq_refl) (-55)%Z 36028797018963968%Z. rewrite u64. apply Rabs_le; lra. Qed.
Lemma d4_64 : Rabs (B2R (k4 _ _ exp64) - 293641 / 10000000) <= ulp1 53.
Proof. cbn [k4 exp64]. value a4 (num64 8463625588356479 (-58) eq_refl) (-58)%Z 288230376151711744%Z. rewrite u64. apply Rabs_le; lra. Qed.
Lemma dl_64 : Rabs (B2R (kln2 _ _ exp64) - ln 2) <= ulp1 53 / 10 + 1 / 10000000000.
Proof.
  cbn [kln2 exp64]. assert (B := ln2_bounds).
  value M_LN2 (num64 6243314768165359 (-53) eq_refl) (-53)%Z 9007199254740992%Z. rewrite u64. apply Rabs_le; lra.
Qed.

Lemma d1_32 : Rabs (B2R (k1 _ _ exp32) - - (9998684 / 10000000)) <= ulp1 24.
Proof. cbn [k1 exp32]. value (f32_of_f64 a1) (neg32 16775008 (-24) eq_refl) (-24)%Z 16777216%Z. rewrite u32. apply Rabs_le; lra. Qed.
Lemma d2_32 : Rabs (B2R (k2 _ _ exp32) - 4982926 / 10000000) <= ulp1 24.
Proof. cbn [k2 exp32]. value (f32_of_f64 a2) (num32 16719925 (-25) eq_refl) (-25)%Z 33554432%Z. rewrite u32. apply Rabs_le; lra. Qed.
Lemma d3_32 : Rabs (B2R (k3 _ _ exp32) - - (1595332 / 10000000)) <= ulp1 24.
Proof. cbn [k3 exp32]. value (f32_of_f64 a3) (neg32 10706092 (-26) eq_refl) (-26)%Z 67108864%Z. rewrite u32. apply Rabs_le; lra. Qed.
Lemma d4_32 : Rabs (B2R (k4 _ _ exp32) - 293641 / 10000000) <= ulp1 24.
Proof. cbn [k4 exp32]. value (f32_of_f64 a4) (num32 15764731 (-29) eq_refl) (-29)%Z 536870912%Z. rewrite u32. apply Rabs_le; lra. Qed.
Lemma dl_32 : Rabs (B2R (kln2 _ _ exp32) - ln 2) <= ulp1 24 / 10 + 1 / 10000000000.
Proof.
  cbn [kln2 exp32]. assert (B := ln2_bounds).
  value (f32_of_f64 M_LN2) (num32 11629080 (-24) eq_refl) (-24)%Z 16777216%Z. rewrite u32. apply Rabs_le; lra.
Qed.

Definition sign_at (x : R) (s : R) : Prop := (Rabs x <= 4366 / 100 -> s = 1) /\ (4367 / 100 <= Rabs x -> s = -1).

Lemma sign_k : forall k, (0 <= k <= 63)%Z -> (sign_of k = 1 \/ sign_of k = -1) /\ ((k <= 62)%Z -> sign_of k = 1) /\ (k = 63%Z -> sign_of k = -1).
Proof. intros k Hk. unfold sign_of. destruct (Z.eqb_spec k 63); repeat split; auto; intros; try lia; reflexivity. Qed.

Lemma back : forall s r x b, (s = 1 \/ s = -1) -> Rabs (s * r * exp (- x) - 1) <= b -> Rabs (r - s * exp x) <= b * exp x.
Proof.
  intros s r x b Hs H. assert (P := exp_pos x).
  replace (r - s * exp x) with (s * (s * r * exp (- x) - 1) * exp x).
  - rewrite !Rabs_mult, (Rabs_pos_eq (exp x)) by lra. apply Rmult_le_compat_r; [lra|].
    assert (Rabs s = 1) as -> by (destruct Hs as [->| ->]; [apply Rabs_pos_eq|rewrite Rabs_left]; lra). lra.
  - rewrite exp_Ropp. destruct Hs as [->| ->]; field; lra.
Qed.

Theorem exp64_gen : forall x : f64, is_finite x = true -> Rabs (B2R x) <= 4436 / 100 ->
  exists s r, ApprExp64 x = Ok r /\ is_finite r = true /\ Rabs (B2R r - s * exp (B2R x)) <= 4 / 1000000 * exp (B2R x) /\ sign_at (B2R x) s.
Proof.
  intros x Fx Hx.
  destruct (exp_gen 53 1024 prec_gt_0_53 prec_lt_53 exp64 ltac:(rewrite u64; lra) ltac:(lia) ltac:(lia) fin64 d1_64 d2_64 d3_64 d4_64 dl_64 x Fx Hx)
    as (k & r & E & F & Hk & A & K1 & K2).
  destruct (sign_k k Hk) as (S1 & S2 & S3).
  exists (sign_of k), r. split; [exact E|]. split; [exact F|]. split; [|split; auto].
  eapply Rle_trans; [exact (back _ _ _ _ S1 A)|]. apply Rmult_le_compat_r; [left; apply exp_pos|]. rewrite u64. lra.
Qed.
Theorem exp32_gen : forall x : f32, is_finite x = true -> Rabs (B2R x) <= 4436 / 100 ->
  exists s r, ApprExp32 x = Ok r /\ is_finite r = true /\ Rabs (B2R r - s * exp (B2R x)) <= 9 / 1000000 * exp (B2R x) /\ sign_at (B2R x) s.
Proof.
  intros x Fx Hx.
  destruct (exp_gen 24 128 prec_gt_0_24 prec_lt_24 exp32 ltac:(rewrite u32; lra) ltac:(lia) ltac:(lia) fin32 d1_32 d2_32 d3_32 d4_32 dl_32 x Fx Hx)
    as (k & r & E & F & Hk & A & K1 & K2).
  destruct (sign_k k Hk) as (S1 & S2 & S3).
  exists (sign_of k), r. split; [exact E|]. split; [exact F|]. split; [|split; auto].
  eapply Rle_trans; [exact (back _ _ _ _ S1 A)|]. apply Rmult_le_compat_r; [left; apply exp_pos|]. rewrite u32. lra.
Qed.

Theorem exp64_ub : forall x : f64, is_finite x = true -> 444 / 10 <= Rabs (B2R x) -> ApprExp64 x = UB.
Proof.
  intros x Fx Hx.
  exact (exp_ub 53 1024 prec_gt_0_53 prec_lt_53 exp64 ltac:(rewrite u64; lra) ltac:(lia) ltac:(lia) fin64 dl_64 x Fx Hx).
Qed.
Theorem exp32_ub : forall x : f32, is_finite x = true -> 444 / 10 <= Rabs (B2R x) -> ApprExp32 x = UB.
Proof.
  intros x Fx Hx.
  exact (exp_ub 24 128 prec_gt_0_24 prec_lt_24 exp32 ltac:(rewrite u32; lra) ltac:(lia) ltac:(lia) fin32 dl_32 x Fx Hx).
Qed.

Theorem exp64_nonfinite : forall x : f64, is_finite x = false -> ApprExp64 x = UB.
Proof. intros [s|s| |s m e H] Fx; try discriminate; try destruct s; vm_compute; reflexivity. Qed.
Theorem exp32_nonfinite : forall x : f32, is_finite x = false -> ApprExp32 x = UB.
Proof. intros [s|s| |s m e H] Fx; try discriminate; try destruct s; vm_compute; reflexivity. Qed.
