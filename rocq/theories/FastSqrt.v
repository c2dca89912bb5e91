(** The fast square root: the first guess, one Newton step, the result. *)
From Coq Require Import ZArith Reals Lra Lia Bool Psatz List.
From Coquelicot Require Import Rcomplements.
From Flocq Require Import Core BinarySingleNaN.
From Verif Require Import Base FloatModel MongoModel CellModel FastModel FastReal FastRound FastBits.
Import ListNotations.
Open Scope R_scope.

(** ** The first guess *)
(** (1 + m) y^2 stays within 3.5 percent of a square, on the three pieces. *)
Ltac by_cover p c r n w :=
  let H := fresh "H" in
  assert (H : 0 <= pe p w) by
    (apply (cover_ok p n c r); [lia | vm_compute; reflexivity | lra |
      match goal with |- _ < IZR ?a - _ => let b := eval vm_compute in a in change a with b end; lra]);
  cbn [pe] in H.

Lemma guess1 : forall m c, 0 <= m <= 865 / 1000 -> 4324 / 10000 <= c <= 4325 / 10000 ->
  (965 / 1000) ^ 2 <= (1 + m) / 2 * (1 + c - m / 2) ^ 2 <= (1035 / 1000) ^ 2.
Proof.
  intros m c Hm Hc.
  assert (L : (1 + 4324 / 10000 - m / 2) ^ 2 <= (1 + c - m / 2) ^ 2) by (apply pow_incr; lra).
  assert (U : (1 + c - m / 2) ^ 2 <= (1 + 4325 / 10000 - m / 2) ^ 2) by (apply pow_incr; lra).
  assert (P : 0 <= (1 + m) / 2) by lra.
  apply (Rmult_le_compat_l _ _ _ P) in L. apply (Rmult_le_compat_l _ _ _ P) in U.
  split.
  - refine (Rle_trans _ _ _ _ L). by_cover [18931976000; 61936976; -118240; 25]%Z 1%Z 1%Z 433%nat (1000 * m). lra.
  - refine (Rle_trans _ _ _ U _). by_cover [361575000; -2478225; 4730; -1]%Z 32%Z 32%Z 14%nat (1000 * m). lra.
Qed.

Lemma guess2 : forall m c, 864 / 1000 <= m <= 1 -> 4324 / 10000 <= c <= 4325 / 10000 ->
  (965 / 1000) ^ 2 <= (1 + m) / 8 * (2 + c - m / 2) ^ 2 <= (1035 / 1000) ^ 2.
Proof.
  intros m c Hm Hc.
  assert (L : (2 + 4324 / 10000 - m / 2) ^ 2 <= (2 + c - m / 2) ^ 2) by (apply pow_incr; lra).
  assert (U : (2 + c - m / 2) ^ 2 <= (2 + 4325 / 10000 - m / 2) ^ 2) by (apply pow_incr; lra).
  assert (P : 0 <= (1 + m) / 8) by lra.
  apply (Rmult_le_compat_l _ _ _ P) in L. apply (Rmult_le_compat_l _ _ _ P) in U.
  split.
  - refine (Rle_trans _ _ _ _ L). by_cover [-153323024000; 348416976; -218240; 25]%Z 896%Z 32%Z 3%nat (1000 * m). lra.
  - refine (Rle_trans _ _ _ U _). by_cover [10610975000; -13938225; 8730; -1]%Z 896%Z 32%Z 3%nat (1000 * m). lra.
Qed.

Lemma guess3 : forall m c, 0 <= m <= 1 -> 4324 / 10000 <= c <= 4325 / 10000 ->
  (965 / 1000) ^ 2 <= (1 + m) / 4 * (3 / 2 + c - m / 2) ^ 2 <= (1035 / 1000) ^ 2.
Proof.
  intros m c Hm Hc.
  assert (L : (3 / 2 + 4324 / 10000 - m / 2) ^ 2 <= (3 / 2 + c - m / 2) ^ 2) by (apply pow_incr; lra).
  assert (U : (3 / 2 + c - m / 2) ^ 2 <= (3 / 2 + 4325 / 10000 - m / 2) ^ 2) by (apply pow_incr; lra).
  assert (P : 0 <= (1 + m) / 4) by lra.
  apply (Rmult_le_compat_l _ _ _ P) in L. apply (Rmult_le_compat_l _ _ _ P) in U.
  split.
  - refine (Rle_trans _ _ _ _ L). by_cover [926976000; 180176976; -168240; 25]%Z 32%Z 32%Z 16%nat (1000 * m). lra.
  - refine (Rle_trans _ _ _ U _). by_cover [2201375000; -7208225; 6730; -1]%Z 32%Z 32%Z 16%nat (1000 * m). lra.
Qed.

(** The guess, from the fields of the argument. [bias] is 127 or 1023. *)
Lemma guess_fields : forall mw bias Ke Km E M : Z, (1 < mw)%Z -> (2 * Ke - 3 * bias = -1)%Z ->
  (4324 * 2 ^ mw <= 10000 * Km)%Z -> (10000 * (Km + 1) <= 4325 * 2 ^ mw)%Z ->
  (0 <= M < 2 ^ mw)%Z ->
  exists E0 M0, (Ke * 2 ^ mw + Km - (E * 2 ^ mw + M) / 2 = E0 * 2 ^ mw + M0)%Z /\ (0 <= M0 < 2 ^ mw)%Z
    /\ (Ke - 1 - E / 2 <= E0 <= Ke - E / 2)%Z
    /\ let z := IZR (2 ^ mw + M) * bpow radix2 (E - bias - mw) in
       let x := IZR (2 ^ mw + M0) * bpow radix2 (E0 - bias - mw) in
       (965 / 1000) ^ 2 <= z * x ^ 2 <= (1035 / 1000) ^ 2.
Proof.
  intros mw bias Ke Km E M Hmw HK K1 K2 HM.
  assert (PW : (0 < 2 ^ mw)%Z) by (apply Z.pow_pos_nonneg; lia).
  assert (EW : (2 ^ mw = 2 * 2 ^ (mw - 1))%Z).
  { replace mw with (1 + (mw - 1))%Z at 1 by lia. rewrite Z.pow_add_r by lia. reflexivity. }
  assert (PWR : 0 < IZR (2 ^ mw)) by (apply IZR_lt; lia).
  set (a := (E / 2)%Z). set (h := (M / 2)%Z).
  assert (Hh : (2 * h <= M <= 2 * h + 1)%Z) by (subst h; clear; assert (A := Z.div_mod M 2 ltac:(lia)); assert (B := Z.mod_pos_bound M 2 ltac:(lia)); lia).
  (* the value, once the fields are known *)
  assert (V : forall E0 M0 : Z, IZR (2 ^ mw + M) * bpow radix2 (E - bias - mw) * (IZR (2 ^ mw + M0) * bpow radix2 (E0 - bias - mw)) ^ 2
    = (1 + IZR M / IZR (2 ^ mw)) * (1 + IZR M0 / IZR (2 ^ mw)) ^ 2 * bpow radix2 (E + 2 * E0 - 3 * bias)).
  { intros E0 M0. replace (E + 2 * E0 - 3 * bias)%Z with ((E - bias - mw) + ((E0 - bias - mw) + (E0 - bias - mw)) + (mw + (mw + mw)))%Z by lia.
    rewrite !bpow_plus, !plus_IZR. replace (bpow radix2 mw) with (IZR (2 ^ mw)) by (rewrite <- IZR_Zpower by lia; reflexivity).
    field. lra. }
  set (m := IZR M / IZR (2 ^ mw)).
  assert (Hm : 0 <= m < 1).
  { unfold m. split; [apply Rdiv_le_0_compat; [apply IZR_le; lia|lra]|].
    apply Rmult_lt_reg_r with (IZR (2 ^ mw)); [lra|]. unfold Rdiv. rewrite Rmult_assoc, Rinv_l by lra. rewrite Rmult_1_l, Rmult_1_r. apply IZR_lt; lia. }
  set (c := (IZR Km - IZR h) / IZR (2 ^ mw) + m / 2).
  assert (Hc : 4324 / 10000 <= c <= 4325 / 10000).
  { assert (C : c = (2 * IZR Km - 2 * IZR h + IZR M) / (2 * IZR (2 ^ mw))) by (unfold c, m; field; lra).
    rewrite C. assert (Q1 : IZR (2 * h) <= IZR M) by (apply IZR_le; lia).
    assert (Q2 : IZR M <= IZR (2 * h + 1)) by (apply IZR_le; lia).
    apply IZR_le in K1. apply IZR_le in K2. rewrite ?plus_IZR, ?mult_IZR, ?plus_IZR in *.
    split.
    - apply Rmult_le_reg_r with (2 * IZR (2 ^ mw)); [lra|]. unfold Rdiv at 2. rewrite Rmult_assoc, Rinv_l by lra. lra.
    - apply Rmult_le_reg_r with (2 * IZR (2 ^ mw)); [lra|]. unfold Rdiv at 1. rewrite Rmult_assoc, Rinv_l by lra. lra. }
  assert (CH : (IZR Km - IZR h) / IZR (2 ^ mw) = c - m / 2) by (unfold c; ring).
  assert (Ea : E = (2 * a)%Z \/ E = (2 * a + 1)%Z).
  { subst a. assert (A := Z.div_mod E 2 ltac:(lia)). assert (B := Z.mod_pos_bound E 2 ltac:(lia)). lia. }
  destruct Ea as [Ea|Ea].
  - assert (D : ((E * 2 ^ mw + M) / 2 = a * 2 ^ mw + h)%Z).
    { rewrite Ea. replace (2 * a * 2 ^ mw + M)%Z with ((a * 2 ^ mw) * 2 + M)%Z by lia. rewrite Z.div_add_l by lia. reflexivity. }
    destruct (Z_le_gt_dec h Km) as [L|G].
    + exists (Ke - a)%Z, (Km - h)%Z. split; [rewrite D; lia|]. split; [lia|]. split; [lia|]. cbv zeta. rewrite V.
      replace (E + 2 * (Ke - a) - 3 * bias)%Z with (-1)%Z by lia. change (bpow radix2 (-1)) with (/ 2).
      rewrite minus_IZR. fold m. rewrite CH.
      replace ((1 + m) * (1 + (c - m / 2)) ^ 2 * / 2) with ((1 + m) / 2 * (1 + c - m / 2) ^ 2) by (unfold Rdiv; ring).
      apply guess1; [|exact Hc]. split; [lra|].
      apply IZR_le in L. assert (0 <= (IZR Km - IZR h) / IZR (2 ^ mw)) by (apply Rdiv_le_0_compat; lra). lra.
    + exists (Ke - a - 1)%Z, (2 ^ mw + Km - h)%Z. split; [rewrite D; lia|]. split; [lia|]. split; [lia|]. cbv zeta. rewrite V.
      replace (E + 2 * (Ke - a - 1) - 3 * bias)%Z with (-3)%Z by lia. change (bpow radix2 (-3)) with (/ 8).
      rewrite minus_IZR, plus_IZR. fold m.
      replace ((IZR (2 ^ mw) + IZR Km - IZR h) / IZR (2 ^ mw)) with (1 + (IZR Km - IZR h) / IZR (2 ^ mw)) by (field; lra). rewrite CH.
      replace ((1 + m) * (1 + (1 + (c - m / 2))) ^ 2 * / 8) with ((1 + m) / 8 * (2 + c - m / 2) ^ 2) by (unfold Rdiv; ring).
      apply guess2; [|exact Hc]. split; [|lra].
      assert (G' : (Km <= h)%Z) by lia. apply IZR_le in G'.
      assert (0 <= (IZR h - IZR Km) / IZR (2 ^ mw)) by (apply Rdiv_le_0_compat; lra).
      assert ((IZR h - IZR Km) / IZR (2 ^ mw) = - ((IZR Km - IZR h) / IZR (2 ^ mw))) by (field; lra). lra.
  - assert (D : ((E * 2 ^ mw + M) / 2 = a * 2 ^ mw + 2 ^ (mw - 1) + h)%Z).
    { rewrite Ea. replace ((2 * a + 1) * 2 ^ mw + M)%Z with ((a * 2 ^ mw + 2 ^ (mw - 1)) * 2 + M)%Z by lia. rewrite Z.div_add_l by lia. reflexivity. }
    exists (Ke - a - 1)%Z, (2 ^ (mw - 1) + Km - h)%Z. split; [rewrite D; lia|]. split; [lia|]. split; [lia|]. cbv zeta. rewrite V.
    replace (E + 2 * (Ke - a - 1) - 3 * bias)%Z with (-2)%Z by lia. change (bpow radix2 (-2)) with (/ 4).
    rewrite minus_IZR, plus_IZR. fold m.
    replace (IZR (2 ^ (mw - 1))) with (IZR (2 ^ mw) / 2) by (rewrite EW, mult_IZR; field).
    replace ((IZR (2 ^ mw) / 2 + IZR Km - IZR h) / IZR (2 ^ mw)) with (1 / 2 + (IZR Km - IZR h) / IZR (2 ^ mw)) by (field; lra). rewrite CH.
    replace ((1 + m) * (1 + (1 / 2 + (c - m / 2))) ^ 2 * / 4) with ((1 + m) / 4 * (3 / 2 + c - m / 2) ^ 2) by field.
    apply guess3; [lra|exact Hc].
Qed.

(** ** One Newton step *)
Lemma newton_error : forall e t w u E, 0 <= u <= 1 / 1000000 -> Rabs e <= E -> E <= 35 / 1000 ->
  Rabs t <= 501 / 100 * u -> Rabs w <= 201 / 100 * u ->
  Rabs ((1 + e) * (3 / 2 - (1 + e) ^ 2 / 2 * (1 + t)) * (1 + w) - 1) <= 152 / 100 * E ^ 2 + 5 * u.
Proof.
  intros e t w u E Hu He HE Ht Hw.
  set (A := 3 / 2 * e ^ 2 + e ^ 3 / 2). set (B := (1 + e) ^ 3 / 2).
  replace ((1 + e) * (3 / 2 - (1 + e) ^ 2 / 2 * (1 + t)) * (1 + w) - 1) with (- A - B * t + (1 - A - B * t) * w) by (unfold A, B; field).
  assert (He' := Rabs_pos e).
  assert (HA : Rabs A <= 152 / 100 * E ^ 2).
  { unfold A. replace (3 / 2 * e ^ 2 + e ^ 3 / 2) with (e ^ 2 * (3 / 2 + e / 2)) by field. rewrite Rabs_mult.
    rewrite Rmult_comm. apply Rmult_le_compat; try apply Rabs_pos.
    - apply Rabs_le. apply Rabs_le_inv in He. lra.
    - rewrite <- RPow_abs. apply pow_incr. lra. }
  assert (HA2 : Rabs A <= 2 / 1000).
  { eapply Rle_trans; [exact HA|]. assert (E ^ 2 <= (35 / 1000) ^ 2) by (apply pow_incr; lra). lra. }
  assert (HB : Rabs B <= 555 / 1000).
  { unfold B. unfold Rdiv. rewrite Rabs_mult, <- RPow_abs, (Rabs_pos_eq (/ 2)) by lra.
    assert (Rabs (1 + e) <= 1035 / 1000) by (apply Rabs_le; apply Rabs_le_inv in He; lra).
    assert (Rabs (1 + e) ^ 3 <= (1035 / 1000) ^ 3) by (apply pow_incr; split; [apply Rabs_pos|assumption]). lra. }
  assert (HBt : Rabs (B * t) <= 279 / 100 * u).
  { rewrite Rabs_mult. apply Rle_trans with (555 / 1000 * (501 / 100 * u)); [apply Rmult_le_compat; auto using Rabs_pos|lra]. }
  assert (HW : Rabs ((1 - A - B * t) * w) <= 203 / 100 * u).
  { rewrite Rabs_mult. apply Rle_trans with (1003 / 1000 * (201 / 100 * u)); [apply Rmult_le_compat; auto using Rabs_pos|lra].
    apply Rabs_le. apply Rabs_le_inv in HA2, HBt. lra. }
  apply Rabs_le. apply Rabs_le_inv in HA, HBt, HW. lra.
Qed.

Lemma three_small : forall a b c u, 0 <= u <= 1 / 1000000 -> Rabs a <= 3 * u -> Rabs b <= u -> Rabs c <= u ->
  Rabs ((1 + a) * (1 + b) * (1 + c) - 1) <= 501 / 100 * u.
Proof.
  intros a b c u Hu Ha Hb Hc.
  assert (S : forall x y p q, Rabs x <= p -> Rabs y <= q -> Rabs (x * y) <= p * q).
  { intros. rewrite Rabs_mult. apply Rmult_le_compat; auto using Rabs_pos. }
  assert (H1 := S _ _ _ _ Ha Hb). assert (H2 := S _ _ _ _ Ha Hc). assert (H3 := S _ _ _ _ Hb Hc).
  assert (H4 := S _ _ _ _ H1 Hc).
  replace ((1 + a) * (1 + b) * (1 + c) - 1) with (a + b + c + a * b + a * c + b * c + a * b * c) by ring.
  apply Rabs_le. apply Rabs_le_inv in Ha, Hb, Hc, H1, H2, H3, H4.
  assert (u * u <= u * (1 / 1000000)) by (apply Rmult_le_compat_l; lra).
  assert (u * u * u <= u * (1 / 1000000)) by (rewrite Rmult_assoc; apply Rmult_le_compat_l; nra).
  nra.
Qed.

Lemma two_small : forall a b u, 0 <= u <= 1 / 1000000 -> Rabs a <= u -> Rabs b <= u ->
  Rabs ((1 + a) * (1 + b) - 1) <= 201 / 100 * u.
Proof.
  intros a b u Hu Ha Hb.
  assert (H1 : Rabs (a * b) <= u * u) by (rewrite Rabs_mult; apply Rmult_le_compat; auto using Rabs_pos).
  replace ((1 + a) * (1 + b) - 1) with (a + b + a * b) by ring.
  apply Rabs_le. apply Rabs_le_inv in Ha, Hb, H1.
  assert (u * u <= u * (1 / 1000000)) by (apply Rmult_le_compat_l; lra). lra.
Qed.

Section Newton.
Variables prec emax : Z.
Variable Hp : FLX.Prec_gt_0 prec.
Variable He : Prec_lt_emax prec emax.
Notation flo := (binary_float prec emax).
Notation u := (ulp1 prec).
Notation least := (least emax).
Notation most := (most emax).
Notation mul := (mul prec emax Hp He).
Notation sub := (sub prec emax Hp He).
Variable Hu : u <= 1 / 1000000.
Variable Hleast : least <= 1 / 16.
Variable Hmost : 4 <= most.
Variable three_halves : flo.
Variable H32 : B2R three_halves = 3 / 2 /\ is_finite three_halves = true.

(** [x] is 1/s up to the relative error [E]. *)
Definition near (s : R) (x : flo) (E : R) : Prop :=
  is_finite x = true /\ Rabs (B2R x * s - 1) <= E.

Lemma newton_step : forall (s : R) (h x : flo) (E : R),
  8 * least <= s <= most / 4 -> 8 * least <= / s <= most / 4 ->
  is_finite h = true -> (exists d, Rabs d <= 3 * u /\ B2R h = s ^ 2 / 2 * (1 + d)) ->
  near s x E -> E <= 35 / 1000 ->
  near s (mul x (sub three_halves (mul (mul h x) x))) (152 / 100 * E ^ 2 + 5 * u).
Proof using Hu Hleast Hmost H32.
  intros s h x E Hs Hs' Fh (d0 & D0 & Vh) (Fx & Nx) HE.
  assert (Pu := ulp1_pos prec). assert (Pl : 0 < least) by apply bpow_gt_0.
  assert (Ps : 0 < s) by lra.
  set (e := B2R x * s - 1) in *.
  assert (Vx : B2R x = (1 + e) * / s) by (unfold e; field; lra).
  assert (Be : - (35 / 1000) <= e <= 35 / 1000) by (apply Rabs_le_inv in Nx; lra).
  assert (Bd0 : - (1 / 1000) <= d0 <= 1 / 1000) by (apply Rabs_le_inv in D0; lra).
  (* h * x *)
  assert (P1 : B2R h * B2R x = s * ((1 + d0) * (1 + e) / 2)) by (rewrite Vh, Vx; field; lra).
  assert (Q1 : 4 / 10 <= (1 + d0) * (1 + e) / 2 <= 6 / 10) by nra.
  assert (R1 : s * (4 / 10) <= B2R h * B2R x <= s * (6 / 10)) by (rewrite P1; split; apply Rmult_le_compat_l; lra).
  destruct (mul_rel prec emax Hp He h x Fh Fx) as (d1 & D1 & V1 & F1); try (rewrite Rabs_pos_eq; lra).
  set (p1 := mul h x) in *.
  assert (Bd1 : - (1 / 1000) <= d1 <= 1 / 1000) by (apply Rabs_le_inv in D1; lra).
  (* * x *)
  assert (P2 : B2R p1 * B2R x = (1 + e) ^ 2 / 2 * ((1 + d0) * (1 + d1))) by (rewrite V1, Vh, Vx; field; lra).
  assert (Q2a : 46 / 100 <= (1 + e) ^ 2 / 2 <= 54 / 100) by nra.
  assert (Q2b : 99 / 100 <= (1 + d0) * (1 + d1) <= 101 / 100) by nra.
  assert (Q2 : 4 / 10 <= B2R p1 * B2R x <= 6 / 10) by (rewrite P2; clear - Q2a Q2b; nra).
  destruct (mul_rel prec emax Hp He p1 x F1 Fx) as (d2 & D2 & V2 & F2); try (rewrite Rabs_pos_eq; lra).
  set (p2 := mul p1 x) in *.
  assert (Bd2 : - (1 / 1000) <= d2 <= 1 / 1000) by (apply Rabs_le_inv in D2; lra).
  assert (Q3 : 39 / 100 <= B2R p2 <= 61 / 100) by (rewrite V2; clear - Q2 Bd2; nra).
  (* 1.5 - *)
  destruct H32 as (V32 & F32).
  destruct (sub_rel prec emax Hp He three_halves p2 F32 F2) as (d3 & D3 & V3 & F3).
  { rewrite V32, Rabs_pos_eq; lra. }
  set (q := sub three_halves p2) in *. rewrite V32 in V3.
  assert (Bd3 : - (1 / 1000) <= d3 <= 1 / 1000) by (apply Rabs_le_inv in D3; lra).
  assert (Q4 : 8 / 10 <= B2R q <= 12 / 10) by (rewrite V3; clear - Q3 Bd3; nra).
  (* x * *)
  assert (P5 : B2R x * B2R q = / s * ((1 + e) * B2R q)) by (rewrite Vx; ring).
  assert (Q5 : 7 / 10 <= (1 + e) * B2R q <= 13 / 10) by (clear - Be Q4; nra).
  assert (R5 : / s * (7 / 10) <= B2R x * B2R q <= / s * (13 / 10)).
  { rewrite P5. split; apply Rmult_le_compat_l; lra. }
  destruct (mul_rel prec emax Hp He x q Fx F3) as (d4 & D4 & V4 & F4); try (rewrite Rabs_pos_eq; lra).
  split; [exact F4|].
  assert (T := three_small d0 d1 d2 u (conj (Rlt_le _ _ Pu) Hu) D0 D1 D2).
  assert (W := two_small d3 d4 u (conj (Rlt_le _ _ Pu) Hu) D3 D4).
  assert (N := newton_error e _ _ u E (conj (Rlt_le _ _ Pu) Hu) Nx HE T W).
  rewrite V4, V3, V2, V1, Vh, Vx.
  match goal with |- Rabs ?a <= _ => match type of N with Rabs ?b <= _ => replace a with b by (field; lra) end end.
  exact N.
Qed.

(** Three steps from a guess within 3.5 percent, and the product with z. *)
Lemma three_steps : forall (z h x0 : flo) (E1 E2 E3 E4 : R), is_finite z = true ->
  0 < B2R z -> let s := sqrt (B2R z) in
  8 * least <= s <= most / 4 -> 8 * least <= / s <= most / 4 ->
  is_finite h = true -> Rabs (B2R h - B2R z / 2) <= 3 * u * (B2R z / 2) ->
  is_finite x0 = true -> 0 <= B2R x0 -> (965 / 1000) ^ 2 <= B2R z * B2R x0 ^ 2 <= (1035 / 1000) ^ 2 ->
  152 / 100 * (35 / 1000) ^ 2 + 5 * u <= E1 -> E1 <= 35 / 1000 ->
  152 / 100 * E1 ^ 2 + 5 * u <= E2 -> E2 <= 35 / 1000 ->
  152 / 100 * E2 ^ 2 + 5 * u <= E3 -> E3 <= 35 / 1000 ->
  E3 + 11 / 10 * u <= E4 ->
  let step x := mul x (sub three_halves (mul (mul h x) x)) in
  let r := mul z (step (step (step x0))) in
  is_finite r = true /\ Rabs (B2R r - s) <= E4 * s.
Proof using Hu Hleast Hmost H32.
  intros z h x0 E1 E2 E3 E4 Fz Pz s Hs Hs' Fh Hh F0 P0 G HE1 L1 HE2 L2 HE3 L3 HE4 step r.
  assert (Pu := ulp1_pos prec). assert (Pl : 0 < least) by apply bpow_gt_0.
  assert (Ss : s ^ 2 = B2R z) by (unfold s; rewrite <- Rsqr_pow2; apply Rsqr_sqrt; lra).
  assert (Ps : 0 < s) by lra.
  assert (Dh : exists d, Rabs d <= 3 * u /\ B2R h = s ^ 2 / 2 * (1 + d)).
  { exists ((B2R h - B2R z / 2) / (B2R z / 2)). split.
    - unfold Rdiv at 1. rewrite Rabs_mult, (Rabs_pos_eq (/ (B2R z / 2))) by (left; apply Rinv_0_lt_compat; lra).
      apply Rmult_le_reg_r with (B2R z / 2); [lra|]. rewrite Rmult_assoc, Rinv_l by lra. lra.
    - rewrite Ss. field. lra. }
  assert (N0 : near s x0 (35 / 1000)).
  { split; [exact F0|]. rewrite <- Ss in G. replace (s ^ 2 * B2R x0 ^ 2) with ((B2R x0 * s) ^ 2) in G by ring.
    assert (0 <= B2R x0 * s) by (apply Rmult_le_pos; lra).
    rewrite <- !Rsqr_pow2 in G. destruct G as (G1 & G2).
    apply Rsqr_incr_0 in G1; [|lra|assumption]. apply Rsqr_incr_0 in G2; [|assumption|lra].
    apply Rabs_le. lra. }
  assert (MONO : forall x E E', near s x E -> E <= E' -> near s x E').
  { intros x E E' (A & B) C. split; [exact A|lra]. }
  assert (N1 := MONO _ _ _ (newton_step s h x0 _ Hs Hs' Fh Dh N0 (Rle_refl _)) HE1).
  assert (N2 := MONO _ _ _ (newton_step s h _ _ Hs Hs' Fh Dh N1 L1) HE2).
  assert (N3 := MONO _ _ _ (newton_step s h _ _ Hs Hs' Fh Dh N2 L2) HE3).
  fold (step x0) in N1, N2, N3. fold (step (step x0)) in N2, N3. fold (step (step (step x0))) in N3.
  set (x3 := step (step (step x0))) in *. destruct N3 as (F3 & N3).
  set (e := B2R x3 * s - 1) in *.
  assert (Vx : B2R x3 = (1 + e) * / s) by (unfold e; field; lra).
  assert (Be : - (35 / 1000) <= e <= 35 / 1000) by (apply Rabs_le_inv in N3; lra).
  assert (P : B2R z * B2R x3 = s * (1 + e)) by (rewrite Vx, <- Ss; field; lra).
  assert (Q : s * (9 / 10) <= B2R z * B2R x3 <= s * (11 / 10)) by (rewrite P; split; apply Rmult_le_compat_l; lra).
  destruct (mul_rel prec emax Hp He z x3 Fz F3) as (d & D & V & F); try (rewrite Rabs_pos_eq; lra).
  split; [exact F|]. unfold r. rewrite V, P.
  replace (s * (1 + e) * (1 + d) - s) with ((e + (1 + e) * d) * s) by ring.
  rewrite Rabs_mult, (Rabs_pos_eq s) by lra. apply Rmult_le_compat_r; [lra|].
  assert (A : Rabs ((1 + e) * d) <= 11 / 10 * u).
  { rewrite Rabs_mult. apply Rmult_le_compat; auto using Rabs_pos. apply Rabs_le; lra. }
  eapply Rle_trans; [apply Rabs_triang|]. lra.
Qed.
End Newton.

Lemma B2R_SF : forall prec emax (x y : binary_float prec emax), B2SF x = B2SF y -> x = y.
Proof. intros prec emax x y. apply B2SF_inj. Qed.

Lemma least_64 : bpow radix2 (-1022) <= 1 / 16.
Proof. apply Rle_trans with (bpow radix2 (-4)); [apply bpow_le; lia|]. change (bpow radix2 (-4)) with (/ 16). lra. Qed.
Lemma most_64 : 4 <= bpow radix2 1023.
Proof. apply Rle_trans with (bpow radix2 2); [change (bpow radix2 2) with 4; lra|apply bpow_le; lia]. Qed.

Lemma sqrt_range : forall v a b, bpow radix2 (2 * a) <= v <= bpow radix2 (2 * b) ->
  bpow radix2 a <= sqrt v <= bpow radix2 b /\ bpow radix2 (- b) <= / sqrt v <= bpow radix2 (- a).
Proof.
  intros v a b (H1 & H2).
  assert (A : bpow radix2 a <= sqrt v) by (rewrite <- (sqrt_bpow radix2 a); apply sqrt_le_1_alt; exact H1).
  assert (B : sqrt v <= bpow radix2 b) by (rewrite <- (sqrt_bpow radix2 b); apply sqrt_le_1_alt; exact H2).
  assert (0 < bpow radix2 a) by apply bpow_gt_0.
  split; [split; assumption|]. rewrite !bpow_opp. split; apply Rinv_le; lra.
Qed.

Theorem sqrt64_ok : forall z : f64, is_finite z = true -> bpow radix2 (-1022) <= B2R z ->
  is_finite (ApprSqrt64 z) = true /\ Rabs (B2R (ApprSqrt64 z) - sqrt (B2R z)) <= 5 / 100000000000 * sqrt (B2R z).
Proof.
  intros z Fz Lz.
  assert (Pz : 0 < B2R z) by (eapply Rlt_le_trans; [apply bpow_gt_0|exact Lz]).
  destruct (bits64_normal z Fz Lz) as (E & M & HE & HM & Hb & Vz).
  destruct (guess_fields 52 1023 1534 0x6eb50c7b537a9 E M) as (E0 & M0 & Hi & HM0 & HE0 & G); try lia.
  assert (E2 : (0 <= E / 2 <= 1023)%Z) by (split; [apply Z.div_pos; lia|apply Z.lt_succ_r; apply Z.div_lt_upper_bound; lia]).
  assert (Ei : ((0x5fe6eb50c7b537a9 - bits64 z / 2) mod 2 ^ 64 = E0 * 2 ^ 52 + M0)%Z).
  { rewrite Hb. change 0x5fe6eb50c7b537a9%Z with (1534 * 2 ^ 52 + 0x6eb50c7b537a9)%Z. rewrite Hi. apply Z.mod_small. lia. }
  destruct (of_bits64_normal E0 M0) as (V0 & F0); [lia|lia|].
  replace (E - 1023 - 52)%Z with (E - 1075)%Z in G by lia. replace (E0 - 1023 - 52)%Z with (E0 - 1075)%Z in G by lia.
  cbv zeta in G. rewrite <- Vz, <- V0 in G.
  assert (Rz : bpow radix2 (2 * -511) <= B2R z <= bpow radix2 (2 * 512)).
  { split; [exact Lz|]. left. assert (A := abs_B2R_lt_emax 53 1024 z). rewrite Rabs_pos_eq in A by lra. exact A. }
  apply sqrt_range in Rz. destruct Rz as (Rs & Rs'). change (Z.opp (-511)) with 511%Z in Rs'. change (Z.opp 512) with (-512)%Z in Rs'.
  assert (B1 : 8 * bpow radix2 (-1022) <= bpow radix2 (-512)).
  { change 8 with (bpow radix2 3). rewrite <- bpow_plus. apply bpow_le. lia. }
  assert (B2 : bpow radix2 512 <= bpow radix2 1023 / 4).
  { unfold Rdiv. change (/ 4) with (bpow radix2 (-2)). rewrite <- bpow_plus. apply bpow_le. lia. }
  assert (B3 : bpow radix2 (-512) <= bpow radix2 (-511)) by (apply bpow_le; lia).
  assert (B4 : bpow radix2 511 <= bpow radix2 512) by (apply bpow_le; lia).
  assert (U : ulp1 53 <= 12 / 100000000000000000) by (unfold ulp1; change (bpow radix2 (- (53))) with (/ 9007199254740992); lra).
  assert (Pu := ulp1_pos 53).
  assert (Vh : B2R (lit64 5 1) = 1 / 2 /\ is_finite (lit64 5 1) = true).
  { replace (lit64 5 1) with (@B754_finite 53 1024 false 4503599627370496 (-53) eq_refl) by (apply B2SF_inj; vm_compute; reflexivity).
    split; [|reflexivity]. cbn [B2R]. unfold F2R. cbn [Fnum Fexp SpecFloat.cond_Zopp]. change (bpow radix2 (-53)) with (/ 9007199254740992). lra. }
  assert (V32 : B2R (lit64 15 1) = 3 / 2 /\ is_finite (lit64 15 1) = true).
  { replace (lit64 15 1) with (@B754_finite 53 1024 false 6755399441055744 (-52) eq_refl) by (apply B2SF_inj; vm_compute; reflexivity).
    split; [|reflexivity]. cbn [B2R]. unfold F2R. cbn [Fnum Fexp SpecFloat.cond_Zopp]. change (bpow radix2 (-52)) with (/ 4503599627370496). lra. }
  destruct (mul_abs 53 1024 prec_gt_0_53 prec_lt_53 (lit64 5 1) z (proj2 Vh) Fz) as (Ah & Fh).
  { rewrite (proj1 Vh). rewrite Rabs_pos_eq by lra. assert (A := abs_B2R_lt_emax 53 1024 z). rewrite Rabs_pos_eq in A by lra.
    change (bpow radix2 1024) with (2 * bpow radix2 1023) in A. unfold most. change (1024 - 1)%Z with 1023%Z. lra. }
  rewrite (proj1 Vh) in Ah. replace (1 / 2 * B2R z) with (B2R z / 2) in Ah by field. rewrite (Rabs_pos_eq (B2R z / 2)) in Ah by lra.
  unfold ApprSqrt64. cbv zeta. rewrite Ei. unfold newton64.
  eapply (three_steps 53 1024 prec_gt_0_53 prec_lt_53) with (E1 := 18621 / 10000000) (E2 := 52706 / 10000000000) (E3 := 423 / 10000000000000);
    try assumption; try (unfold least, most); try change (2 - 1024)%Z with (-1022)%Z; try change (1024 - 1)%Z with 1023%Z; try lra.
  - apply least_64.
  - apply most_64.
  - unfold least in Ah. change (2 - 1024)%Z with (-1022)%Z in Ah.
    assert (ulp1 53 * bpow radix2 (-1022) <= ulp1 53 * B2R z) by (apply Rmult_le_compat_l; lra). lra.
  - rewrite V0. apply Rmult_le_pos; [apply IZR_le; lia|apply bpow_ge_0].
Qed.

Lemma least_32 : bpow radix2 (-126) <= 1 / 16.
Proof. apply Rle_trans with (bpow radix2 (-4)); [apply bpow_le; lia|]. change (bpow radix2 (-4)) with (/ 16). lra. Qed.
Lemma most_32 : 4 <= bpow radix2 127.
Proof. apply Rle_trans with (bpow radix2 2); [change (bpow radix2 2) with 4; lra|apply bpow_le; lia]. Qed.

Theorem sqrt32_ok : forall z : f32, is_finite z = true -> bpow radix2 (-126) <= B2R z ->
  is_finite (ApprSqrt32 z) = true /\ Rabs (B2R (ApprSqrt32 z) - sqrt (B2R z)) <= 4 / 10000000 * sqrt (B2R z).
Proof.
  intros z Fz Lz.
  assert (Pz : 0 < B2R z) by (eapply Rlt_le_trans; [apply bpow_gt_0|exact Lz]).
  destruct (bits32_normal z Fz Lz) as (E & M & HE & HM & Hb & Vz).
  destruct (guess_fields 23 127 190 0x375a86 E M) as (E0 & M0 & Hi & HM0 & HE0 & G); try lia.
  assert (E2 : (0 <= E / 2 <= 127)%Z) by (split; [apply Z.div_pos; lia|apply Z.lt_succ_r; apply Z.div_lt_upper_bound; lia]).
  assert (Ei : ((0x5f375a86 - bits32 z / 2) mod 2 ^ 32 = E0 * 2 ^ 23 + M0)%Z).
  { rewrite Hb. change 0x5f375a86%Z with (190 * 2 ^ 23 + 0x375a86)%Z. rewrite Hi. apply Z.mod_small. lia. }
  destruct (of_bits32_normal E0 M0) as (V0 & F0); [lia|lia|].
  replace (E - 127 - 23)%Z with (E - 150)%Z in G by lia. replace (E0 - 127 - 23)%Z with (E0 - 150)%Z in G by lia.
  cbv zeta in G. rewrite <- Vz, <- V0 in G.
  assert (Rz : bpow radix2 (2 * -63) <= B2R z <= bpow radix2 (2 * 64)).
  { split; [exact Lz|]. left. assert (A := abs_B2R_lt_emax 24 128 z). rewrite Rabs_pos_eq in A by lra. exact A. }
  apply sqrt_range in Rz. destruct Rz as (Rs & Rs'). change (Z.opp (-63)) with 63%Z in Rs'. change (Z.opp 64) with (-64)%Z in Rs'.
  assert (B1 : 8 * bpow radix2 (-126) <= bpow radix2 (-64)).
  { change 8 with (bpow radix2 3). rewrite <- bpow_plus. apply bpow_le. lia. }
  assert (B2 : bpow radix2 64 <= bpow radix2 127 / 4).
  { unfold Rdiv. change (/ 4) with (bpow radix2 (-2)). rewrite <- bpow_plus. apply bpow_le. lia. }
  assert (B3 : bpow radix2 (-64) <= bpow radix2 (-63)) by (apply bpow_le; lia).
  assert (B4 : bpow radix2 63 <= bpow radix2 64) by (apply bpow_le; lia).
  assert (U : ulp1 24 <= 59605 / 1000000000000) by (unfold ulp1; change (bpow radix2 (- (24))) with (/ 16777216); lra).
  assert (Pu := ulp1_pos 24).
  assert (Vh : B2R (lit32 5 1) = 1 / 2 /\ is_finite (lit32 5 1) = true).
  { replace (lit32 5 1) with (@B754_finite 24 128 false 8388608 (-24) eq_refl) by (apply B2SF_inj; vm_compute; reflexivity).
    split; [|reflexivity]. cbn [B2R]. unfold F2R. cbn [Fnum Fexp SpecFloat.cond_Zopp]. change (bpow radix2 (-24)) with (/ 16777216). lra. }
  assert (V32 : B2R (lit32 15 1) = 3 / 2 /\ is_finite (lit32 15 1) = true).
  { replace (lit32 15 1) with (@B754_finite 24 128 false 12582912 (-23) eq_refl) by (apply B2SF_inj; vm_compute; reflexivity).
    split; [|reflexivity]. cbn [B2R]. unfold F2R. cbn [Fnum Fexp SpecFloat.cond_Zopp]. change (bpow radix2 (-23)) with (/ 8388608). lra. }
  destruct (mul_abs 24 128 prec_gt_0_24 prec_lt_24 (lit32 5 1) z (proj2 Vh) Fz) as (Ah & Fh).
  { rewrite (proj1 Vh). rewrite Rabs_pos_eq by lra. assert (A := abs_B2R_lt_emax 24 128 z). rewrite Rabs_pos_eq in A by lra.
    change (bpow radix2 128) with (2 * bpow radix2 127) in A. unfold most. change (128 - 1)%Z with 127%Z. lra. }
  rewrite (proj1 Vh) in Ah. replace (1 / 2 * B2R z) with (B2R z / 2) in Ah by field. rewrite (Rabs_pos_eq (B2R z / 2)) in Ah by lra.
  unfold ApprSqrt32. cbv zeta. rewrite Ei. unfold newton32.
  eapply (three_steps 24 128 prec_gt_0_24 prec_lt_24) with (E1 := 18624 / 10000000) (E2 := 55710 / 10000000000) (E3 := 29809 / 100000000000);
    try assumption; try (unfold least, most); try change (2 - 128)%Z with (-126)%Z; try change (128 - 1)%Z with 127%Z; try lra.
  - apply least_32.
  - apply most_32.
  - unfold least in Ah. change (2 - 128)%Z with (-126)%Z in Ah.
    assert (ulp1 24 * bpow radix2 (-126) <= ulp1 24 * B2R z) by (apply Rmult_le_compat_l; lra). lra.
  - rewrite V0. apply Rmult_le_pos; [apply IZR_le; lia|apply bpow_ge_0].
Qed.
