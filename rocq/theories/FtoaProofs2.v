(** More about the text of a double: which doubles survive it. *)
From Coq Require Import ZArith Reals Lra Lia Ascii String List Bool.
From Flocq Require Import Core BinarySingleNaN.
From Verif Require Import Base StrModel StrSpec StrProofs FloatModel FloatProofs NumModel NumSpec NumProofs FtoaModel FtoaSpec FtoaProofs.
Import ListNotations.
Open Scope R_scope.

Local Instance p53w : Prec_gt_0 53 := prec_gt_0_53.

(** ** Equal numbers have equal plain texts *)
Lemma value_shift s : forall a, value_of a s = (a * 10 ^ Z.of_nat (length s) + value_of 0 s)%Z.
Proof. induction s as [|c s IH]; intros a; [cbn; lia|]. cbn [value_of length]. rewrite IH, (IH (0 * 10 + _)%Z), Nat2Z.inj_succ, Z.pow_succ_r by lia. ring. Qed.

Lemma digits_same s : forall t, length s = length t -> Forall (fun c => isdigit c = true) s -> Forall (fun c => isdigit c = true) t ->
  value_of 0 s = value_of 0 t -> s = t.
Proof.
  induction s as [|c s IH]; intros [|d t] L F G V; try discriminate; [reflexivity|].
  inversion F as [|? ? C F']; inversion G as [|? ? D G']; subst. injection L as L. cbn [value_of] in V.
  rewrite (value_shift s), (value_shift t), L in V. pose proof (value_of_lt s F') as Vs. pose proof (value_of_lt t G') as Vt. rewrite L in Vs.
  assert (E : (code c - 48 = code d - 48)%Z).
  { set (P := (10 ^ Z.of_nat (length t))%Z) in *. clear - V Vs Vt. nia. }
  f_equal.
  - unfold code in E. rewrite <- (ascii_nat_embedding c), <- (ascii_nat_embedding d). f_equal. lia.
  - apply IH; auto. rewrite E in V. lia.
Qed.

Lemma strip0_pad s j : (forall t, s <> t ++ ["0"%char]) -> strip0 (s ++ repeat "0"%char j) = s.
Proof.
  induction s as [|c s IH]; intros H. { apply strip0_all. }
  cbn [app strip0]. assert (H' : forall t, s <> t ++ ["0"%char]). { intros t ->. apply (H (c :: t)). reflexivity. }
  rewrite (IH H'). destruct s; [|reflexivity]. destruct (ascii_dec c "0") as [->|]; [|reflexivity]. exfalso. apply (H []). reflexivity.
Qed.

Lemma plain_scaled neg ip fp s : plain_text neg ip fp s ->
  plain_value neg ip fp = (if neg then - (IZR (value_of 0 ip * 1000000 + value_of 0 (fp ++ repeat "0"%char (6 - length fp)))%Z * bpow radix10 (-6))
                           else IZR (value_of 0 ip * 1000000 + value_of 0 (fp ++ repeat "0"%char (6 - length fp)))%Z * bpow radix10 (-6)).
Proof.
  intros (_ & _ & _ & _ & L & _ & _). unfold plain_value, number_value.
  assert (E : (value_of 0 ip * 1000000 + value_of 0 (fp ++ repeat "0"%char (6 - length fp)) = value_of 0 (ip ++ fp) * 10 ^ Z.of_nat (6 - length fp))%Z).
  { rewrite <- value_of_zeros, <- value_of_app, <- app_assoc, (value_of_app ip), (value_shift (fp ++ _) (value_of 0 ip)), app_length, repeat_length.
    replace (length fp + (6 - length fp))%nat with 6%nat by lia. reflexivity. }
  rewrite E, mult_IZR, <- bpow10_pos, Rmult_assoc, <- bpow_plus by lia. replace (Z.of_nat (6 - length fp) + -6)%Z with (- Z.of_nat (length fp))%Z by lia. reflexivity.
Qed.

Lemma plain_unique neg ip fp s ip' fp' s' : plain_text neg ip fp s -> plain_text neg ip' fp' s' ->
  plain_value neg ip fp = plain_value neg ip' fp' -> s = s'.
Proof.
  intros T T' V. rewrite (plain_scaled _ _ _ _ T), (plain_scaled _ _ _ _ T') in V.
  destruct T as (N & DI & Z0 & DF & L & E0 & ->). destruct T' as (N' & DI' & Z0' & DF' & L' & E0' & ->).
  apply digit_text_iff in DI, DF, DI', DF'.
  set (p := fp ++ repeat "0"%char (6 - length fp)) in *. set (p' := fp' ++ repeat "0"%char (6 - length fp')) in *.
  assert (Lp : length p = 6%nat) by (unfold p; rewrite app_length, repeat_length; lia).
  assert (Lp' : length p' = 6%nat) by (unfold p'; rewrite app_length, repeat_length; lia).
  assert (Fp : Forall (fun c => isdigit c = true) p) by (apply Forall_app; split; [exact DF|apply zeros_digits]).
  assert (Fp' : Forall (fun c => isdigit c = true) p') by (apply Forall_app; split; [exact DF'|apply zeros_digits]).
  assert (I : (value_of 0 ip * 1000000 + value_of 0 p = value_of 0 ip' * 1000000 + value_of 0 p')%Z).
  { pose proof (bpow_gt_0 radix10 (-6)) as B. apply eq_IZR, (Rmult_eq_reg_r (bpow radix10 (-6))); [|lra]. destruct neg; lra. }
  pose proof (value_of_lt p Fp) as Vp. pose proof (value_of_lt p' Fp') as Vp'. rewrite Lp in Vp. rewrite Lp' in Vp'. change (10 ^ Z.of_nat 6)%Z with 1000000%Z in *.
  assert (A : ip = ip') by (apply canonical_nat_unique; auto; lia).
  assert (B : p = p') by (apply digits_same; auto; subst; lia || congruence).
  assert (C : fp = fp'). { rewrite <- (strip0_pad fp (6 - length fp) E0), <- (strip0_pad fp' (6 - length fp') E0'). fold p p'. rewrite B. reflexivity. }
  rewrite A, C. reflexivity.
Qed.

(** The text determines the number. *)
Lemma plain_parse neg ip fp s neg' ip' fp' : plain_text neg ip fp s -> plain_text neg' ip' fp' s -> neg = neg' /\ ip = ip' /\ fp = fp'.
Proof.
  intros (N & DI & _ & DF & _ & _ & E) (N' & DI' & _ & DF' & _ & _ & E'). rewrite E in E'. clear E.
  apply digit_text_iff in DI, DF, DI', DF'.
  assert (H : forall a, Forall (fun c => isdigit c = true) a -> a <> [] -> exists c t, a = c :: t /\ c <> "-"%char).
  { intros [|c a] F K; [contradiction|]. exists c, a. split; [reflexivity|]. inversion F as [|? ? C _]. intros ->. discriminate C. }
  assert (S : neg = neg').
  { destruct (H ip DI N) as (c & t & -> & C). destruct (H ip' DI' N') as (c' & t' & -> & C').
    destruct neg, neg'; auto; cbn in E'; injection E'; intros; congruence. }
  subst neg'. split; [reflexivity|]. apply app_inv_head in E'.
  assert (Q : forall f : bytes, no_digit match f with [] => [] | _ => "."%char :: f end) by (intros [|c f]; exact I || reflexivity).
  pose proof (span_digits_app ip _ DI (Q fp)) as P. pose proof (span_digits_app ip' _ DI' (Q fp')) as P'.
  pose proof (eq_trans (eq_sym P) (eq_trans (f_equal span_digits E') P')) as R. injection R as P1 P2.
  split; [congruence|]. destruct fp, fp'; congruence.
Qed.

Lemma ftoa_same (x y : f64) : is_finite x = true -> is_finite y = true ->
  (ftoa x = ftoa y <-> Bsign x = Bsign y /\ millionths (B2R x) = millionths (B2R y)).
Proof.
  intros Fx Fy. destruct (ftoa_plain x Fx) as (s & ip & fp & E & T & V). destruct (ftoa_plain y Fy) as (s' & ip' & fp' & E' & T' & V').
  rewrite E, E'. split.
  - intros K. injection K as ->. destruct (plain_parse _ _ _ _ _ _ _ T T') as (S & -> & ->). split; [exact S|]. rewrite <- V, <- V', S. reflexivity.
  - intros [S M]. f_equal. rewrite S in *. apply (plain_unique _ _ _ _ _ _ _ T T'). rewrite V, V'. exact M.
Qed.

(** ** How far the number read back is from the number *)
Lemma millionths_err y : Rabs (millionths y - y) <= / 2000000.
Proof.
  unfold millionths. eapply Rle_trans; [apply error_le_half_ulp; typeclasses eauto|]. rewrite ulp_FIX.
  replace (bpow radix10 (-6)) with (/ 1000000); [lra|]. cbn. lra.
Qed.

Lemma to_double_best y (x : f64) : is_finite x = true -> Rabs (to_double y - y) <= Rabs (B2R x - y).
Proof.
  intros F. destruct (round_N_pt radix2 (FLT_exp (-1074) 53) (fun z => negb (Z.even z)) y) as [_ H]. apply H.
  destruct (to_double_in x F) as [E _]. rewrite <- E. apply generic_format_round; typeclasses eauto.
Qed.

Lemma back_close (x : f64) : is_finite x = true -> Rabs (to_double (millionths (B2R x)) - B2R x) <= / 1000000.
Proof.
  intros F. pose proof (to_double_best (millionths (B2R x)) x F) as A. pose proof (millionths_err (B2R x)) as B.
  rewrite <- Rabs_Ropp in B. replace (- (millionths (B2R x) - B2R x)) with (B2R x - millionths (B2R x)) in B by ring.
  replace (to_double (millionths (B2R x)) - B2R x) with ((to_double (millionths (B2R x)) - millionths (B2R x)) - (B2R x - millionths (B2R x))) by ring.
  eapply Rle_trans; [apply Rabs_triang|]. rewrite Rabs_Ropp. lra.
Qed.

Lemma back_finite (x : f64) : is_finite x = true -> Rabs (to_double (millionths (B2R x))) < bpow radix2 1024.
Proof.
  intros F. pose proof (back_close x F) as C. pose proof (abs_B2R_le_emax_minus_prec 53 1024 prec_gt_0_53 x) as M.
  apply Rle_lt_trans with (Rabs (B2R x) + / 1000000).
  - replace (to_double (millionths (B2R x))) with (B2R x + (to_double (millionths (B2R x)) - B2R x)) at 1 by ring. eapply Rle_trans; [apply Rabs_triang|]. lra.
  - assert (1 <= bpow radix2 (1024 - 53)); [|lra]. change 1 with (bpow radix2 0). apply bpow_le. lia.
Qed.

Lemma ftoa_close (x : f64) : is_finite x = true ->
  exists s y, ftoa x = Ok s /\ IsDouble f64 strtod s = (y, true) /\ is_finite y = true /\ Bsign y = Bsign x /\ Rabs (B2R y - B2R x) <= / 1000000.
Proof.
  intros F. destruct (ftoa_back x F) as (s & y & E & I & D). exists s, y. split; [exact E|]. split; [exact I|].
  destruct D as [(Fy & V & S & _)|(_ & K)].
  - split; [exact Fy|]. split; [exact S|]. rewrite V. apply back_close, F.
  - pose proof (back_finite x F). lra.
Qed.

(** ** Large numbers survive *)
Lemma format_in (x : f64) : generic_format radix2 (FLT_exp (-1074) 53) (B2R x).
Proof. apply (generic_format_B2R 53 1024). Qed.

Lemma millionths_int z : millionths (IZR z) = IZR z.
Proof.
  apply round_generic; [typeclasses eauto|]. apply generic_format_FIX. exists (Float radix10 (z * 1000000) (-6)); [|reflexivity].
  unfold F2R. cbn [Fnum Fexp]. rewrite mult_IZR. replace (bpow radix10 (-6)) with (/ 1000000) by (cbn; lra). field.
Qed.

Lemma ulp_large y : bpow radix2 33 <= Rabs y -> bpow radix2 (-19) <= ulp radix2 (FLT_exp (-1074) 53) y.
Proof.
  intros H. assert (N : y <> 0). { intros ->. rewrite Rabs_R0 in H. pose proof (bpow_gt_0 radix2 33). lra. }
  rewrite ulp_neq_0 by exact N. unfold cexp. apply bpow_le. unfold FLT_exp.
  assert (G : (33 < mag radix2 y)%Z) by (apply mag_gt_bpow; exact H). lia.
Qed.

Lemma to_double_opp y : to_double (- y) = - to_double y.
Proof. apply round_NE_opp. Qed.

Lemma large_pos y m : generic_format radix2 (FLT_exp (-1074) 53) y -> bpow radix2 33 < y -> Rabs (m - y) <= / 2000000 -> to_double m = y.
Proof.
  intros F H D. pose proof (bpow_gt_0 radix2 33) as P33.
  assert (B19 : bpow radix2 (-19) = / 524288) by (cbn; lra).
  assert (U : bpow radix2 (-19) <= ulp radix2 (FLT_exp (-1074) 53) y) by (apply ulp_large; rewrite Rabs_pos_eq; lra).
  assert (F33 : generic_format radix2 (FLT_exp (-1074) 53) (bpow radix2 33)) by (apply generic_format_bpow; unfold FLT_exp; lia).
  assert (PR : bpow radix2 33 <= pred radix2 (FLT_exp (-1074) 53) y) by (apply pred_ge_gt; [typeclasses eauto|exact F33|exact F|exact H]).
  assert (UP : bpow radix2 (-19) <= ulp radix2 (FLT_exp (-1074) 53) (pred radix2 (FLT_exp (-1074) 53) y)) by (apply ulp_large; rewrite Rabs_pos_eq; lra).
  assert (PU : pred radix2 (FLT_exp (-1074) 53) y + ulp radix2 (FLT_exp (-1074) 53) (pred radix2 (FLT_exp (-1074) 53) y) = y) by (apply pred_plus_ulp; [typeclasses eauto|lra|exact F]).
  assert (S : succ radix2 (FLT_exp (-1074) 53) y = y + ulp radix2 (FLT_exp (-1074) 53) y) by (apply succ_eq_pos; lra).
  apply Rabs_le_inv in D. apply Rle_antisym.
  - apply round_N_le_midp; [typeclasses eauto|exact F|]. rewrite S. lra.
  - apply round_N_ge_midp; [typeclasses eauto|exact F|]. lra.
Qed.

Lemma large_back (x : f64) : is_finite x = true -> bpow radix2 33 <= Rabs (B2R x) -> to_double (millionths (B2R x)) = B2R x.
Proof.
  intros F H. pose proof (format_in x) as G.
  assert (P33 : millionths (bpow radix2 33) = bpow radix2 33) by (change (bpow radix2 33) with (IZR (2 ^ 33)); apply millionths_int).
  assert (T33 : to_double (bpow radix2 33) = bpow radix2 33) by (apply round_generic; [typeclasses eauto|apply generic_format_bpow; unfold FLT_exp; lia]).
  pose proof (millionths_err (B2R x)) as E. unfold Rabs in H. destruct (Rcase_abs (B2R x)) as [L|L].
  - destruct H as [H|H].
    + rewrite <- (Ropp_involutive (B2R x)), millionths_opp, to_double_opp. f_equal. apply large_pos; [apply generic_format_opp, G|exact H|].
      rewrite millionths_opp. rewrite <- Rabs_Ropp. replace (- (- millionths (B2R x) - - B2R x)) with (millionths (B2R x) - B2R x) by ring. exact E.
    + rewrite <- (Ropp_involutive (B2R x)), <- H, millionths_opp, to_double_opp, P33, T33. reflexivity.
  - destruct H as [H|H].
    + apply large_pos; [exact G|exact H|exact E].
    + rewrite <- H, P33, T33. reflexivity.
Qed.

(** ** Small numbers survive iff they are the double of whole millionths *)
Lemma millionths_near z y : Rabs (y - IZR z * bpow radix10 (-6)) < / 2000000 -> millionths y = IZR z * bpow radix10 (-6).
Proof.
  intros H. unfold millionths, round, F2R, scaled_mantissa, cexp, FIX_exp. cbn [Fnum Fexp]. change (- (-6))%Z with 6%Z. f_equal. f_equal.
  apply Znearest_imp. replace (bpow radix10 (-6)) with (/ 1000000) in H by (cbn; lra). change (bpow radix10 6) with 1000000.
  apply Rabs_def2 in H as [H1 H2]. apply Rabs_def1; lra.
Qed.

Lemma survives (x : f64) : is_finite x = true ->
  (to_double (millionths (B2R x)) = B2R x <-> exists z, B2R x = to_double (IZR z * bpow radix10 (-6))).
Proof.
  intros F. split.
  - intros E. exists (ZnearestE (B2R x * bpow radix10 6)). symmetry. exact E.
  - intros [z E]. destruct (Rle_or_lt (bpow radix2 33) (Rabs (B2R x))) as [H|H]; [apply large_back; auto|].
    rewrite (millionths_near z); [symmetry; exact E|].
    assert (U : Rabs (B2R x - IZR z * bpow radix10 (-6)) <= / 2 * ulp radix2 (FLT_exp (-1074) 53) (B2R x)).
    { rewrite E. apply error_le_half_ulp_round; typeclasses eauto. }
    eapply Rle_lt_trans; [exact U|].
    assert (V : ulp radix2 (FLT_exp (-1074) 53) (B2R x) <= bpow radix2 (-20)).
    { destruct (Req_dec (B2R x) 0) as [Z|Z].
      - rewrite Z, ulp_FLT_0 by typeclasses eauto. apply bpow_le. lia.
      - rewrite ulp_neq_0 by exact Z. unfold cexp. apply bpow_le. unfold FLT_exp.
        assert (G : (mag radix2 (B2R x) <= 33)%Z) by (apply mag_le_bpow; auto). lia. }
    replace (bpow radix2 (-20)) with (/ 1048576) in V by (cbn; lra). lra.
Qed.

Lemma ftoa_exact (x : f64) s : is_finite x = true -> ftoa x = Ok s ->
  (IsDouble f64 strtod s = (x, true) <-> exists z, B2R x = to_double (IZR z * bpow radix10 (-6))).
Proof.
  intros F E. destruct (ftoa_back x F) as (s' & y & E' & I & D). rewrite E in E'. injection E' as <-. rewrite <- survives by exact F. rewrite I. split.
  - intros K. assert (Y : y = x) by congruence. subst y. destruct D as [(_ & V & _)|(K1 & _)]; [symmetry; exact V|rewrite K1 in F; discriminate].
  - intros V. f_equal. apply (double_of_unique (Bsign x) (millionths (B2R x))); [exact D|]. left. split; [exact F|]. split; [symmetry; exact V|].
    split; [reflexivity|]. apply back_finite, F.
Qed.

(** ** Whole numbers and tiny numbers *)
Lemma ftoa_int (x : f64) z : is_finite x = true -> B2R x = IZR z -> Bsign x = (z <? 0)%Z -> ftoa x = Ok (itoa z).
Proof.
  intros F V S. destruct (ftoa_plain x F) as (s & ip & fp & E & T & P). rewrite E. f_equal. rewrite V, millionths_int in P.
  rewrite S in *. destruct (dec_spec (Z.abs z) ltac:(lia)) as (N & D & W & Z0 & _).
  assert (T' : plain_text (z <? 0)%Z (dec (Z.abs z)) [] (itoa z)).
  { split; [exact N|]. split; [apply digit_text_iff, D|]. split; [exact Z0|]. split; [constructor|]. split; [cbn; lia|].
    split; [intros t K; destruct t; discriminate|]. unfold itoa. rewrite app_nil_r. destruct (Z.ltb_spec z 0); cbn [app]; [rewrite Z.abs_neq by lia|rewrite Z.abs_eq by lia]; reflexivity. }
  apply (plain_unique _ _ _ _ _ _ _ T T'). rewrite P. unfold plain_value, number_value. rewrite app_nil_r, W. cbn [length Z.of_nat Z.opp bpow]. rewrite Rmult_1_r.
  destruct (Z.ltb_spec z 0); [rewrite <- opp_IZR|]; f_equal; lia.
Qed.

Lemma ftoa_tiny (x : f64) : is_finite x = true -> Rabs (B2R x) <= / 2000000 -> ftoa x = Ok (if Bsign x then str "-0" else str "0").
Proof.
  intros F H. destruct (ftoa_plain x F) as (s & ip & fp & E & T & P). rewrite E. f_equal.
  assert (M : millionths (B2R x) = 0).
  { unfold millionths, round, F2R, scaled_mantissa, cexp, FIX_exp. cbn [Fnum Fexp]. change (- (-6))%Z with 6%Z. change (bpow radix10 6) with 1000000.
    replace (ZnearestE (B2R x * 1000000)) with 0%Z; [ring|]. symmetry.
    apply Rabs_le_inv in H as [H1 H2].
    destruct (Rle_lt_or_eq_dec _ _ H2) as [L2|L2]; [destruct (Rle_lt_or_eq_dec _ _ H1) as [L1|L1]|].
    - apply Znearest_imp. apply Rabs_def1; lra.
    - rewrite <- L1. replace (- / 2000000 * 1000000) with (- (/ 2)) by lra. rewrite <- (Rplus_0_l (- (/ 2))).
      unfold Znearest. assert (FL : Zfloor (0 + - / 2) = (-1)%Z) by (apply Zfloor_imp; cbn; lra). rewrite FL.
      rewrite Rcompare_Eq by (cbn; lra). cbn. assert (CL : Zceil (0 + - / 2) = 0%Z) by (apply Zceil_imp; cbn; lra). exact CL.
    - rewrite L2. replace (/ 2000000 * 1000000) with (/ 2) by lra. unfold Znearest. assert (FL : Zfloor (/ 2) = 0%Z) by (apply Zfloor_imp; cbn; lra). rewrite FL.
      rewrite Rcompare_Eq by (cbn; lra). reflexivity. }
  rewrite M in P. assert (T' : plain_text (Bsign x) ["0"%char] [] (if Bsign x then str "-0" else str "0")).
  { split; [discriminate|]. split; [apply digit_text_iff; repeat constructor|]. split; [reflexivity|]. split; [constructor|]. split; [cbn; lia|].
    split; [intros t K; destruct t; discriminate|]. destruct (Bsign x); reflexivity. }
  apply (plain_unique _ _ _ _ _ _ _ T T'). rewrite P. unfold plain_value, number_value. change (value_of 0 (["0"%char] ++ [])) with 0%Z. destruct (Bsign x); cbn; ring.
Qed.
