(** Property theorems about FloatEqual (C65). *)
From Coq Require Import ZArith Reals Bool Lia Lra.
From Flocq Require Import Core BinarySingleNaN.
From Verif Require Import FloatModel FloatProofs.
Open Scope Z_scope.

(** ** C65 *)
(** Integers of magnitude up to 2^53: FloatEqual is equality. *)
Theorem C65_integers : forall x y : Z, Z.abs x <= 2 ^ 53 -> Z.abs y <= 2 ^ 53 ->
  FloatEqual (of_int x) (of_int y) = (x =? y).
Proof. exact FloatEqual_int. Qed.
Print Assumptions C65_integers.

(** Finite doubles on a common binary grid of at least 2^-106 (about 1.2e-32). *)
Theorem C65_grid : forall (a b : f64) (e x y : Z), -106 <= e -> is_finite a = true -> is_finite b = true ->
  B2R a = (IZR x * bpow radix2 e)%R -> B2R b = (IZR y * bpow radix2 e)%R -> FloatEqual a b = (x =? y).
Proof. exact FloatEqual_grid. Qed.
Print Assumptions C65_grid.

(** All finite doubles: equal values compare equal, and so do values half the
    tolerance apart; values that compare equal are closer than the tolerance. *)
Theorem C65_finite : forall a b : f64, is_finite a = true -> is_finite b = true ->
  (B2R a = B2R b -> FloatEqual a b = true) /\
  (Rabs (B2R a - B2R b) <= / 2 * B2R TINY -> FloatEqual a b = true)%R /\
  (FloatEqual a b = true -> Rabs (B2R a - B2R b) < B2R TINY)%R.
Proof.
  intros a b Fa Fb. split; [exact (FloatEqual_same a b Fa Fb)|].
  split; [exact (FloatEqual_half a b Fa Fb)|exact (FloatEqual_close a b Fa Fb)].
Qed.
Print Assumptions C65_finite.

(** NaN and infinity are not equal to themselves. *)
Theorem C65_nan_refuted : FloatEqual f64_nan f64_nan = false /\ FloatEqual f64_inf f64_inf = false /\
  forall x : f64, FloatEqual x f64_nan = false /\ FloatEqual f64_nan x = false.
Proof. split; [reflexivity|]. split; [reflexivity|]. intros [s|s| |s m e h]; split; reflexivity. Qed.
Print Assumptions C65_nan_refuted.

(** Distinct 64-bit integers are identified. *)
Theorem C65_int64_refuted : exists x y : Z, x <> y /\ - 2 ^ 63 <= x < 2 ^ 63 /\ - 2 ^ 63 <= y < 2 ^ 63 /\
  FloatEqual (of_int x) (of_int y) = true.
Proof. exists (2 ^ 53), (2 ^ 53 + 1). split; [lia|]. split; [lia|]. split; [lia|]. vm_compute. reflexivity. Qed.
Print Assumptions C65_int64_refuted.

(** The relation is not transitive on tiny values. *)
Theorem C65_transitive_refuted : exists a b c : f64,
  FloatEqual a b = true /\ FloatEqual b c = true /\ FloatEqual a c = false.
Proof.
  exists f64_zero, (@B754_finite 53 1024 false 7307508186654515 (-160) eq_refl), TINY. vm_compute. auto.
Qed.
Print Assumptions C65_transitive_refuted.

Example C65_ex : FloatEqual (of_int (-9999)) (of_int (-9999)) = true /\ FloatEqual (of_int 5) (of_int 6) = false /\
  (Z.abs (-9999) <= 2 ^ 53).
Proof. vm_compute. split; auto. split; auto. discriminate. Qed.
Example C65_ex_grid : B2R (@B754_finite 53 1024 false (2 ^ 52) (-53) eq_refl) = (IZR 1 * bpow radix2 (-1))%R.
Proof.
  cbn [B2R]. unfold F2R. cbn [Fnum Fexp cond_Zopp]. change (bpow radix2 (-53)) with (/ IZR (2 ^ 53))%R.
  change (bpow radix2 (-1)) with (/ IZR 2)%R. change (Z.pos (2 ^ 52)) with (2 ^ 52). cbn. lra.
Qed.
