(** The fast power: the argument of the table, and the result. *)
From Coq Require Import ZArith Reals Lra Lia Bool Psatz List.
From Flocq Require Import Core BinarySingleNaN Bits.
From Flocq Require Binary.
From Verif Require Import Base FloatModel TypeModel MongoModel CellModel CellProofs2 FastModel FastTable FastReal FastRound FastBits FastSqrt FastLn FastLn2 FastExp2 FastExp3 FastPow.
Import ListNotations.
Open Scope R_scope.
Open Scope outcome_scope.

Definition arg (b l : f32) : f32 :=
  add32 (mul32 (mul32 (mul32 b M_2POW23) l) (f32_of_f64 M_LOG2E)) (mul32 (f32_of_int 127) M_2POW23).

Lemma v_2pow23 : B2R M_2POW23 = 8388608 /\ is_finite M_2POW23 = true.
Proof.
  assert (H : M_2POW23 = num32 8388608 0 eq_refl) by (apply B2SF_inj; vm_compute; reflexivity). rewrite H.
  split; [|reflexivity]. unfold num32; cbn [B2R]; unfold F2R; cbn [Fnum Fexp SpecFloat.cond_Zopp]. change (bpow radix2 0) with 1. ring.
Qed.
Lemma v_127 : B2R (mul32 (f32_of_int 127) M_2POW23) = 127 * 8388608 /\ is_finite (mul32 (f32_of_int 127) M_2POW23) = true.
Proof.
  assert (H : mul32 (f32_of_int 127) M_2POW23 = num32 16646144 6 eq_refl) by (apply B2SF_inj; vm_compute; reflexivity). rewrite H.
  split; [|reflexivity]. unfold num32; cbn [B2R]; unfold F2R; cbn [Fnum Fexp SpecFloat.cond_Zopp]. change (bpow radix2 6) with 64. lra.
Qed.
Lemma v_log2e : Rabs (B2R (f32_of_f64 M_LOG2E) - / ln 2) <= 3 / 100000000 /\ 144 / 100 <= B2R (f32_of_f64 M_LOG2E) <= 145 / 100 /\ is_finite (f32_of_f64 M_LOG2E) = true.
Proof.
  assert (B := ln2_bounds).
  assert (H : f32_of_f64 M_LOG2E = num32 12102203 (-23) eq_refl) by (apply B2SF_inj; vm_compute; reflexivity). rewrite H.
  unfold num32; cbn [B2R]; unfold F2R; cbn [Fnum Fexp SpecFloat.cond_Zopp]. change (bpow radix2 (-23)) with (/ 8388608).
  assert (I : 14426950 / 10000000 <= / ln 2 <= 14426951 / 10000000).
  { split; apply Rmult_le_reg_r with (ln 2); try lra; rewrite Rinv_l; lra. }
  split; [|split; [lra|reflexivity]].
  assert (I2 : 14426950400 / 10000000000 <= / ln 2 <= 14426950420 / 10000000000).
  { split; apply Rmult_le_reg_r with (ln 2); try lra; rewrite Rinv_l; lra. }
  apply Rabs_le. lra.
Qed.
Lemma tiny : ulp1 24 * least 128 <= / 1000000000000000000000000000000.
Proof.
  unfold ulp1, least. rewrite <- bpow_plus. change (- (24) + (2 - 128))%Z with (- (150))%Z. rewrite bpow_opp.
  apply Rinv_le_contravar; [lra|]. change (bpow radix2 150) with (IZR (2 ^ 150)). apply IZR_le. vm_compute. discriminate.
Qed.
Lemma huge : 1000000000000000000000000000000 <= most 128.
Proof. unfold most. change (bpow radix2 (128 - 1)) with (IZR (2 ^ 127)). apply IZR_le. vm_compute. discriminate. Qed.

Lemma arg_ok : forall b l : f32, is_finite b = true -> is_finite l = true -> Rabs (B2R b) <= 1000000 -> Rabs (B2R l) <= 100 ->
  let w := B2R b * B2R l / ln 2 in
  is_finite (arg b l) = true /\ Rabs (B2R (arg b l) - (w + 127) * 8388608) <= 3 / 10000000 * (Rabs w + 127) * 8388608.
Proof.
  intros b l Fb Fl Hb Hl w. unfold arg. destruct v_2pow23 as (V23 & F23). destruct v_127 as (V127 & F127).
  destruct v_log2e as (VG & RG & FG). assert (B := ln2_bounds). assert (T := tiny). assert (M := huge).
  set (x := B2R b) in *. set (y := B2R l) in *. set (S := 8388608) in *. set (ep := / 1000000000000000000000000000000) in *.
  assert (Pep : 0 < ep < / 1000000000000) by (unfold ep; lra). clearbody ep.
  set (G := B2R (f32_of_f64 M_LOG2E)) in *. set (big := 1000000000000000000000000000000) in *.
  assert (Px := Rabs_pos x). assert (Py := Rabs_pos y).
  assert (XY : Rabs x * Rabs y <= 100000000) by (replace 100000000 with (1000000 * 100) by ring; apply Rmult_le_compat; lra).
  (* b * 2^23 *)
  destruct (mul_abs 24 128 prec_gt_0_24 prec_lt_24 b M_2POW23 Fb F23) as (A1 & F1).
  { rewrite V23. fold x. rewrite Rabs_mult, (Rabs_pos_eq S) by (unfold S; lra). unfold S, big in *. lra. }
  rewrite V23 in A1. fold x in A1. set (m1 := mul32 b M_2POW23) in *. rewrite Rabs_mult, (Rabs_pos_eq S), u32 in A1 by (unfold S; lra). rewrite u32 in T.
  set (e1 := B2R m1 - x * S) in *.
  (* times the logarithm *)
  assert (E1y : Rabs (e1 * y) <= / 16777216 * (Rabs x * Rabs y * S) + 100 * ep).
  { rewrite Rabs_mult. apply Rle_trans with ((/ 16777216 * (Rabs x * S) + ep) * Rabs y).
    - apply Rmult_le_compat_r; lra.
    - assert (ep * Rabs y <= ep * 100) by (apply Rmult_le_compat_l; lra). lra. }
  set (p := Rabs x * Rabs y * S) in *.
  assert (Pp : 0 <= p <= 1000000000000000).
  { unfold p, S. assert (0 <= Rabs x * Rabs y) by (apply Rmult_le_pos; lra). lra. }
  assert (Pxy : Rabs (x * y * S) = p) by (unfold p; rewrite !Rabs_mult, (Rabs_pos_eq S); unfold S; lra).
  assert (M1y : B2R m1 * y = x * y * S + e1 * y) by (unfold e1; ring).
  assert (A1y : Rabs (B2R m1 * y) <= (1 + / 16777216) * p + 100 * ep).
  { rewrite M1y. eapply Rle_trans; [apply Rabs_triang|]. rewrite Pxy. lra. }
  destruct (mul_abs 24 128 prec_gt_0_24 prec_lt_24 m1 l F1 Fl) as (A2 & F2).
  { fold y. eapply Rle_trans; [exact A1y|]. unfold big in M. lra. }
  fold y in A2. set (m2 := mul32 m1 l) in *. rewrite u32 in A2.
  assert (A2' : Rabs (B2R m2 - x * y * S) <= 200001 / 100000 * / 16777216 * p + 300 * ep).
  { replace (B2R m2 - x * y * S) with ((B2R m2 - B2R m1 * y) + e1 * y) by (rewrite M1y; ring).
    eapply Rle_trans; [apply Rabs_triang|]. lra. }
  set (e2 := B2R m2 - x * y * S) in *.
  (* times 1 / ln 2 *)
  assert (Am2 : Rabs (B2R m2) <= (1 + 3 * / 16777216) * p + 300 * ep).
  { replace (B2R m2) with (x * y * S + e2) by (unfold e2; ring). eapply Rle_trans; [apply Rabs_triang|]. rewrite Pxy. lra. }
  assert (Am2G : Rabs (B2R m2 * G) <= ((1 + 3 * / 16777216) * p + 300 * ep) * (145 / 100)).
  { rewrite Rabs_mult. apply Rmult_le_compat; try apply Rabs_pos; [exact Am2|rewrite Rabs_pos_eq; lra]. }
  destruct (mul_abs 24 128 prec_gt_0_24 prec_lt_24 m2 (f32_of_f64 M_LOG2E) F2 FG) as (A3 & F3).
  { fold G. eapply Rle_trans; [exact Am2G|]. unfold big in M. lra. }
  fold G in A3. set (m3 := mul32 m2 (f32_of_f64 M_LOG2E)) in *. rewrite u32 in A3.
  assert (Pw : Rabs w * S * ln 2 = p).
  { unfold w, p. unfold Rdiv. rewrite !Rabs_mult, Rabs_inv, (Rabs_pos_eq (ln 2)) by lra. field. lra. }
  set (q := Rabs w * S) in *.
  assert (Pq : 0 <= q) by (unfold q; apply Rmult_le_pos; [apply Rabs_pos|unfold S; lra]).
  assert (Qp : q <= p * (144270 / 100000)).
  { rewrite <- Pw. assert (q * (ln 2 * (144270 / 100000)) >= q * 1) by (apply Rmult_ge_compat_l; lra). lra. }
  assert (Qp2 : p <= q * (69314719 / 100000000)) by (rewrite <- Pw; apply Rmult_le_compat_l; lra).
  assert (A3' : Rabs (B2R m3 - w * S) <= 21 / 100000000 * q + 1000 * ep).
  { replace (B2R m3 - w * S) with ((B2R m3 - B2R m2 * G) + e2 * G + x * y * S * (G - / ln 2)) by (unfold e2, w; field; lra).
    assert (Z1 : Rabs (e2 * G) <= (200001 / 100000 * / 16777216 * p + 300 * ep) * (14427 / 10000)).
    { rewrite Rabs_mult. apply Rmult_le_compat; try apply Rabs_pos; [exact A2'|].
      apply Rabs_le_inv in VG. assert (I2 : / ln 2 <= 144269505 / 100000000) by (apply Rmult_le_reg_r with (ln 2); [lra|]; rewrite Rinv_l by lra; lra).
      rewrite Rabs_pos_eq; lra. }
    assert (Z2 : Rabs (x * y * S * (G - / ln 2)) <= p * (3 / 100000000)).
    { rewrite Rabs_mult, Pxy. apply Rmult_le_compat_l; lra. }
    assert (Z3 : Rabs (B2R m2 * G) <= ((1 + 3 * / 16777216) * p + 300 * ep) * (14427 / 10000)).
    { rewrite Rabs_mult. apply Rmult_le_compat; try apply Rabs_pos; [exact Am2|].
      apply Rabs_le_inv in VG. assert (I2 : / ln 2 <= 144269505 / 100000000) by (apply Rmult_le_reg_r with (ln 2); [lra|]; rewrite Rinv_l by lra; lra).
      rewrite Rabs_pos_eq; lra. }
    eapply Rle_trans; [apply Rabs_triang|]. 
    assert (Z4 : Rabs (B2R m3 - B2R m2 * G + e2 * G) <= Rabs (B2R m3 - B2R m2 * G) + Rabs (e2 * G)) by apply Rabs_triang.
    clear - Z1 Z2 Z3 Z4 A3 Qp2 Pep Pp T. lra. }
  (* plus 127 * 2^23 *)
  assert (Aw : Rabs (w * S) = q) by (unfold q; rewrite Rabs_mult, (Rabs_pos_eq S); unfold S; lra).
  assert (Sum : Rabs (B2R m3 + 127 * S) <= (1 + 21 / 100000000) * q + 1000 * ep + 127 * S).
  { replace (B2R m3 + 127 * S) with ((B2R m3 - w * S) + w * S + 127 * S) by ring.
    eapply Rle_trans; [apply Rabs_triang|]. rewrite (Rabs_pos_eq (127 * S)) by (unfold S; lra).
    assert (Z := Rabs_triang (B2R m3 - w * S) (w * S)). rewrite Aw in Z. lra. }
  destruct (add_rel 24 128 prec_gt_0_24 prec_lt_24 m3 (mul32 (f32_of_int 127) M_2POW23) F3 F127) as (d & Hd & V & F).
  { rewrite V127. eapply Rle_trans; [exact Sum|]. unfold S, big in *. lra. }
  rewrite V127 in V. split; [exact F|]. rewrite V, u32 in *.
  replace ((B2R m3 + 127 * S) * (1 + d) - (w + 127) * S) with ((B2R m3 - w * S) + (B2R m3 + 127 * S) * d) by ring.
  eapply Rle_trans; [apply Rabs_triang|].
  assert (Z : Rabs ((B2R m3 + 127 * S) * d) <= ((1 + 21 / 100000000) * q + 1000 * ep + 127 * S) * / 16777216).
  { rewrite Rabs_mult. apply Rmult_le_compat; auto using Rabs_pos. }
  replace (3 / 10000000 * (Rabs w + 127) * S) with (3 / 10000000 * (q + 127 * S)) by (unfold q; ring).
  unfold S in *. clear - Z A3' Pep Pq. lra.
Qed.
