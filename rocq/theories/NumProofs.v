(** Lemmas about numbers as text. *)
From Coq Require Import ZArith Reals Ascii String List Bool Lia Lra SpecFloat.
From Flocq Require Import Core BinarySingleNaN Relative.
From Verif Require Import Base StrModel StrSpec StrProofs FloatModel FloatProofs NumModel NumSpec.
Import ListNotations.
Open Scope R_scope.

Local Instance p53' : Prec_gt_0 53 := prec_gt_0_53.
Local Instance p6 : Prec_gt_0 6 := eq_refl.

Lemma double_of_unique s y a b : double_of s y a -> double_of s y b -> a = b.
Proof.
  intros [[F [E [S L]]]|[E L]] [[F' [E' [S' L']]]|[E' L']]; subst; try lra; auto.
  apply B2R_Bsign_inj; auto; congruence.
Qed.

Lemma to_f64_aux z : forall b (E : valid_binary 53 1024 z = b) (H : valid_binary 53 1024 z = true),
  (if b as b return (valid_binary 53 1024 z = b -> f64) then fun H => SF2B z H else fun _ => f64_nan) E = SF2B z H.
Proof. intros [] E H; [f_equal; apply (Eqdep_dec.UIP_dec Bool.bool_dec)|congruence]. Qed.

Lemma to_f64_valid z (H : valid_binary 53 1024 z = true) : to_f64 z = SF2B z H.
Proof. exact (to_f64_aux z _ eq_refl H). Qed.

Lemma nearest_ok s p q : double_of s (IZR (cond_Zopp s (Zpos p)) / IZR (Zpos q)) (nearest s p q).
Proof.
  unfold nearest. pose proof (Bdiv_correct_aux 53 1024 prec_gt_0_53 prec_lt_53 mode_NE s p 0 false q 0) as C. cbv zeta in C.
  replace (F2R (Float radix2 (cond_Zopp s (Zpos p)) 0)) with (IZR (cond_Zopp s (Zpos p))) in C by (unfold F2R; cbn; lra).
  replace (F2R (Float radix2 (cond_Zopp false (Zpos q)) 0)) with (IZR (Zpos q)) in C by (unfold F2R; cbn; lra).
  change (round radix2 (SpecFloat.fexp 53 1024) (round_mode mode_NE)) with to_double in C.
  rewrite xorb_false_r in C. set (y := IZR (cond_Zopp s (Zpos p)) / IZR (Zpos q)) in *.
  destruct (SFdiv_core_binary 53 1024 (Zpos p) 0 (Zpos q) 0) as [[m e] l].
  set (z := binary_round_aux 53 1024 mode_NE s m e l) in *. clearbody z. destruct C as [V C].
  rewrite (to_f64_valid z V).
  destruct (Rlt_bool_spec (Rabs (to_double y)) (bpow radix2 1024)) as [L|L].
  - left. destruct C as [E [F S]]. rewrite is_finite_SF2B, B2R_SF2B, Bsign_SF2B. auto.
  - right. split; [|exact L]. subst z. destruct s; reflexivity.
Qed.

Lemma bpow10_pos e : (0 <= e)%Z -> bpow radix10 e = IZR (10 ^ e).
Proof. intros H. symmetry. exact (IZR_Zpower radix10 e H). Qed.

Lemma to_double_0 : to_double 0 = 0.
Proof. unfold to_double. apply round_0. typeclasses eauto. Qed.

Lemma nearest10_ok s m e : (0 <= m)%Z -> double_of s (IZR (cond_Zopp s m) * bpow radix10 e) (nearest10 s m e).
Proof.
  intros Hm. destruct m as [|p|p]; [| |lia].
  - left. cbn [nearest10]. replace (IZR (cond_Zopp s 0)) with 0 by (destruct s; reflexivity).
    rewrite Rmult_0_l, to_double_0, Rabs_R0. repeat split; try reflexivity. apply bpow_gt_0.
  - unfold nearest10. destruct (Z.leb_spec 0 e) as [H|H].
    + pose proof (nearest_ok s (Z.to_pos (Zpos p * 10 ^ e)) 1) as N.
      assert (P : (0 < Zpos p * 10 ^ e)%Z) by (apply Z.mul_pos_pos; [lia|apply Z.pow_pos_nonneg; lia]).
      rewrite Z2Pos.id in N by exact P.
      replace (IZR (cond_Zopp s (Zpos p * 10 ^ e)) / 1) with (IZR (cond_Zopp s (Zpos p)) * bpow radix10 e) in N; [exact N|].
      rewrite bpow10_pos by exact H. rewrite <- mult_IZR. unfold Rdiv. rewrite Rinv_1, Rmult_1_r. f_equal. destruct s; cbn [cond_Zopp]; lia.
    + pose proof (nearest_ok s p (Z.to_pos (10 ^ (- e)))) as N.
      rewrite Z2Pos.id in N by (apply Z.pow_pos_nonneg; lia).
      rewrite <- bpow10_pos in N by lia. unfold Rdiv in N. rewrite <- bpow_opp, Z.opp_involutive in N. exact N.
Qed.

(** Rounded quotients. *)
Lemma round_div_ok n d : (0 <= n)%Z -> (0 < d)%Z -> round_div n d = ZnearestE (IZR n / IZR d).
Proof.
  intros Hn Hd. unfold round_div. pose proof (Z_div_mod n d ltac:(lia)) as D.
  destruct (Z.div_eucl n d) as [q r]. destruct D as [E R].
  assert (Dp : 0 < IZR d) by (apply IZR_lt; lia).
  assert (X : IZR n / IZR d = IZR q + IZR r / IZR d) by (rewrite E, plus_IZR, mult_IZR; field; lra).
  assert (R0 : 0 <= IZR r / IZR d) by (apply Rmult_le_pos; [apply IZR_le; lia|left; now apply Rinv_0_lt_compat]).
  assert (R1 : IZR r / IZR d < 1) by (apply Rmult_lt_reg_r with (IZR d); auto; unfold Rdiv; rewrite Rmult_assoc, Rinv_l, Rmult_1_r, Rmult_1_l by lra; apply IZR_lt; lia).
  assert (FL : Zfloor (IZR n / IZR d) = q) by (apply Zfloor_imp; rewrite X, plus_IZR; lra).
  unfold Znearest. rewrite FL.
  assert (HC : Rcompare (IZR n / IZR d - IZR q) (/ 2) = (2 * r ?= d)%Z).
  { replace (IZR n / IZR d - IZR q) with (IZR r / IZR d) by lra.
    rewrite <- (Rcompare_mult_r (2 * IZR d)) by lra.
    replace (IZR r / IZR d * (2 * IZR d)) with (IZR (2 * r)) by (rewrite mult_IZR; field; lra).
    replace (/ 2 * (2 * IZR d)) with (IZR d) by field. apply Rcompare_IZR. }
  rewrite HC.
  assert (CE : r <> 0%Z -> Zceil (IZR n / IZR d) = (q + 1)%Z).
  { intros Hr. apply Zceil_imp. rewrite X, minus_IZR, plus_IZR.
    assert (0 < IZR r / IZR d) by (apply Rmult_lt_0_compat; [apply IZR_lt; lia|now apply Rinv_0_lt_compat]). lra. }
  destruct (Z.compare_spec (2 * r) d) as [K|K|K]; auto.
  - destruct (Z.even q); cbn [negb]; auto. symmetry. apply CE. lia.
  - symmetry. apply CE. lia.
Qed.

Lemma scaled_ok n d k : (0 <= n)%Z -> (0 < d)%Z -> scaled n d k = ZnearestE (IZR n / IZR d * bpow radix10 k).
Proof.
  intros Hn Hd. unfold scaled. assert (Dp : 0 < IZR d) by (apply IZR_lt; lia). destruct (Z.leb_spec 0 k) as [H|H].
  - rewrite round_div_ok; [|apply Z.mul_nonneg_nonneg; [lia|apply Z.pow_nonneg; lia]|lia].
    rewrite mult_IZR, <- bpow10_pos by lia. f_equal. field. lra.
  - rewrite round_div_ok; [|lia|apply Z.mul_pos_pos; [lia|apply Z.pow_pos_nonneg; lia]].
    rewrite mult_IZR, <- bpow10_pos by lia. rewrite bpow_opp. f_equal. field.
    split; [lra|]. apply Rgt_not_eq, bpow_gt_0.
Qed.

(** Number of digits. *)
Lemma dec_length z : (0 < z)%Z -> (10 ^ (Z.of_nat (length (dec z)) - 1) <= z < 10 ^ Z.of_nat (length (dec z)))%Z.
Proof.
  intros Hz. destruct (dec_spec z ltac:(lia)) as [Hn [HF [HV [H0 _]]]].
  pose proof (value_of_bound (dec z) 0 HF ltac:(lia)) as B. rewrite HV in B.
  split; [|lia]. destruct (dec z) as [|c t]; [contradiction|].
  cbn [value_of] in HV. apply Forall_cons_iff in HF as [Hc Ht]. apply isdigit_code in Hc as Hc'.
  assert (code c <> 48%Z).
  { intros K. assert (c = "0"%char).
    { unfold code in K. rewrite <- (ascii_nat_embedding c). replace (nat_of_ascii c) with 48%nat by lia. reflexivity. }
    subst c. specialize (H0 eq_refl). inversion H0; subst t. cbn in HV. lia. }
  pose proof (value_of_bound t (0 * 10 + (code c - 48)) Ht ltac:(lia)) as B2.
  cbn [length]. replace (Z.of_nat (S (length t)) - 1)%Z with (Z.of_nat (length t)) by lia. rewrite HV in B2. nia.
Qed.

Lemma exp10_ok n d : (0 < n)%Z -> (0 < d)%Z -> mag radix10 (IZR n / IZR d) = (exp10 n d + 1)%Z :> Z.
Proof.
  intros Hn Hd. assert (Np : 0 < IZR n) by (apply IZR_lt; lia). assert (Dp : 0 < IZR d) by (apply IZR_lt; lia).
  assert (Q : 0 < IZR n / IZR d) by (apply Rmult_lt_0_compat; auto; now apply Rinv_0_lt_compat).
  apply mag_unique. rewrite Rabs_pos_eq by lra. unfold exp10. destruct (Z.leb_spec d n) as [H|H].
  - assert (P : (0 < n / d)%Z) by (apply Z.div_str_pos; lia).
    pose proof (dec_length _ P) as L. set (l := Z.of_nat (length (dec (n / d)))) in *.
    assert (Hl : (1 <= l)%Z). { destruct (Z.le_gt_cases 1 l); auto. assert (l = 0)%Z by lia. rewrite H1 in L. cbn in L. lia. }
    rewrite !bpow10_pos by lia. replace (l - 1 + 1 - 1)%Z with (l - 1)%Z by lia. replace (l - 1 + 1)%Z with l by lia.
    split; (apply Rmult_le_reg_r with (IZR d) || apply Rmult_lt_reg_r with (IZR d)); auto;
      unfold Rdiv; rewrite Rmult_assoc, Rinv_l, Rmult_1_r by lra; rewrite <- mult_IZR; [apply IZR_le|apply IZR_lt].
    + pose proof (Z.mul_div_le n d ltac:(lia)). nia.
    + pose proof (Z.mul_succ_div_gt n d ltac:(lia)). nia.
  - set (c := ((d + n - 1) / n)%Z).
    assert (C1 : (d <= c * n)%Z). { pose proof (Z.mul_succ_div_gt (d + n - 1) n ltac:(lia)). fold c in H0. nia. }
    assert (C2 : ((c - 1) * n < d)%Z). { pose proof (Z.mul_div_le (d + n - 1) n ltac:(lia)). fold c in H0. nia. }
    assert (P : (0 < c - 1)%Z) by nia. pose proof (dec_length _ P) as L. set (l := Z.of_nat (length (dec (c - 1)))) in *.
    assert (Hl : (1 <= l)%Z). { destruct (Z.le_gt_cases 1 l); auto. assert (l = 0)%Z by lia. rewrite H1 in L. cbn in L. lia. }
    replace (- l + 1 - 1)%Z with (- l)%Z by lia. replace (- l + 1)%Z with (- (l - 1))%Z by lia.
    rewrite !bpow_opp, !bpow10_pos by lia.
    assert (T1 : 0 < IZR (10 ^ l)) by (apply IZR_lt, Z.pow_pos_nonneg; lia).
    assert (T2 : 0 < IZR (10 ^ (l - 1))) by (apply IZR_lt, Z.pow_pos_nonneg; lia).
    split.
    + apply Rmult_le_reg_r with (IZR d * IZR (10 ^ l)); [apply Rmult_lt_0_compat; auto|].
      replace (/ IZR (10 ^ l) * (IZR d * IZR (10 ^ l))) with (IZR d) by (field; lra).
      replace (IZR n / IZR d * (IZR d * IZR (10 ^ l))) with (IZR (n * 10 ^ l)) by (rewrite mult_IZR; field; lra).
      apply IZR_le. nia.
    + apply Rmult_lt_reg_r with (IZR d * IZR (10 ^ (l - 1))); [apply Rmult_lt_0_compat; auto|].
      replace (/ IZR (10 ^ (l - 1)) * (IZR d * IZR (10 ^ (l - 1)))) with (IZR d) by (field; lra).
      replace (IZR n / IZR d * (IZR d * IZR (10 ^ (l - 1)))) with (IZR (n * 10 ^ (l - 1))) by (rewrite mult_IZR; field; lra).
      apply IZR_lt. nia.
Qed.

Lemma frac2_ok m e : let (n, d) := frac2 m e in (0 < n)%Z /\ (0 < d)%Z /\ IZR n / IZR d = IZR (Zpos m) * bpow radix2 e.
Proof.
  unfold frac2. destruct (Z.leb_spec 0 e) as [H|H].
  - split; [apply Z.mul_pos_pos; [lia|apply Z.pow_pos_nonneg; lia]|]. split; [lia|].
    rewrite mult_IZR. rewrite (IZR_Zpower radix2) by lia. unfold Rdiv. rewrite Rinv_1. ring.
  - split; [lia|]. split; [apply Z.pow_pos_nonneg; lia|].
    rewrite (IZR_Zpower radix2) by lia. unfold Rdiv. rewrite bpow_opp, Rinv_inv. reflexivity.
Qed.

(** The six digits. *)
Lemma six_ok m e q k : six m e = (q, k) ->
  (100000 <= q < 1000000)%Z /\ IZR q * bpow radix10 (k - 5) = six_digits (IZR (Zpos m) * bpow radix2 e).
Proof.
  unfold six. pose proof (frac2_ok m e) as F. destruct (frac2 m e) as [n d]. destruct F as [Hn [Hd <-]].
  pose proof (exp10_ok n d Hn Hd) as M. rewrite scaled_ok by lia.
  set (x := IZR n / IZR d) in *. set (k0 := exp10 n d) in *.
  assert (X : 0 < x). { apply Rmult_lt_0_compat; [apply IZR_lt; lia|apply Rinv_0_lt_compat, IZR_lt; lia]. }
  assert (B : bpow radix10 5 <= x * bpow radix10 (5 - k0) <= bpow radix10 6).
  { pose proof (bpow_mag_le radix10 x ltac:(lra)) as B1. pose proof (bpow_mag_gt radix10 x) as B2.
    rewrite M in B1, B2. rewrite Rabs_pos_eq in B1, B2 by lra.
    replace (bpow radix10 5) with (bpow radix10 (k0 + 1 - 1) * bpow radix10 (5 - k0)) by (rewrite <- bpow_plus; f_equal; lia).
    replace (bpow radix10 6) with (bpow radix10 (k0 + 1) * bpow radix10 (5 - k0)) by (rewrite <- bpow_plus; f_equal; lia).
    pose proof (bpow_gt_0 radix10 (5 - k0)). split; apply Rmult_le_compat_r; lra. }
  change (bpow radix10 5) with (IZR 100000) in B. change (bpow radix10 6) with (IZR 1000000) in B.
  set (q0 := ZnearestE (x * bpow radix10 (5 - k0))) in *.
  assert (Q : (100000 <= q0 <= 1000000)%Z).
  { split.
    - rewrite <- (@Zrnd_IZR ZnearestE _ 100000) at 1. apply (@Zrnd_le ZnearestE _). apply B.
    - rewrite <- (@Zrnd_IZR ZnearestE _ 1000000) at 1. apply (@Zrnd_le ZnearestE _). apply B. }
  assert (S : six_digits x = IZR q0 * bpow radix10 (k0 - 5)).
  { unfold six_digits, round, F2R, scaled_mantissa, cexp, FLX_exp. rewrite M. cbn [Fnum Fexp].
    replace (k0 + 1 - 6)%Z with (k0 - 5)%Z by lia. replace (- (k0 - 5))%Z with (5 - k0)%Z by lia. reflexivity. }
  rewrite S. destruct (Z.eqb_spec q0 1000000) as [E|E]; intros K; inversion K; subst q k; clear K.
  - split; [lia|]. rewrite E. replace (k0 + 1 - 5)%Z with (1 + (k0 - 5))%Z by lia. rewrite bpow_plus.
    change (bpow radix10 1) with (IZR 10). rewrite <- Rmult_assoc, <- mult_IZR. reflexivity.
  - split; [lia|reflexivity].
Qed.

(** ** Reading decimal texts *)
Lemma digit_text_iff s : digit_text s <-> Forall (fun c => isdigit c = true) s.
Proof. unfold digit_text. split; apply Forall_impl; intros c; apply isdigit_iff. Qed.

Definition no_digit (r : bytes) : Prop := match r with c :: _ => isdigit c = false | [] => True end.

Lemma span_digits_app d r : Forall (fun c => isdigit c = true) d -> no_digit r -> span_digits (d ++ r) = (d, r).
Proof.
  intros F H. induction F as [|c t Hc F IH]; cbn [app].
  - destruct r as [|c t]; [reflexivity|]. cbn [span_digits]. cbn in H. rewrite H. reflexivity.
  - cbn [span_digits]. rewrite Hc, IH. reflexivity.
Qed.

Lemma dval_ok d : Forall (fun c => isdigit c = true) d -> dval d = value_of 0 d.
Proof. intros F. unfold dval. rewrite digits_all by exact F. reflexivity. Qed.

Lemma get_sign_ok neg sg r : sign_text neg sg -> (match r with c :: _ => c <> "-"%char /\ c <> "+"%char | [] => True end) ->
  get_sign (sg ++ r) = (neg, r).
Proof.
  intros [[-> [->| ->]]|[-> ->]] H; cbn [app]; try reflexivity.
  destruct r as [|c t]; [reflexivity|]. destruct H as [H1 H2]. cbn [get_sign].
  destruct (ascii_dec c "-"); [contradiction|]. destruct (ascii_dec c "+"); [contradiction|]. reflexivity.
Qed.

Lemma digit_neq c a : isdigit c = true -> isdigit a = false -> c <> a.
Proof. intros H K ->. congruence. Qed.

(** What may follow a number without being part of it. *)
Definition tail_ok (t : bytes) : Prop := match t with c :: _ => ~ In c continues | [] => True end.

Lemma tail_no_digit t : tail_ok t -> no_digit t.
Proof.
  destruct t as [|c t]; [trivial|]. intros H. cbn. destruct (isdigit c) eqn:E; [|reflexivity].
  exfalso. apply H. unfold continues. apply in_or_app. left. apply isdigit_iff, E.
Qed.

Lemma tail_head t : tail_ok t -> match t with c :: _ => c <> "."%char /\ toupper c <> "E"%char /\ toupper c <> "X"%char | [] => True end.
Proof.
  destruct t as [|c t]; [trivial|]. intros H. cbn in H.
  assert (U : forall a b, toupper a = b -> (code b < 97)%Z -> a = b \/ code a = (code b + 32)%Z).
  { intros a b E K. apply (f_equal code) in E. rewrite toupper_code in E.
    destruct ((97 <=? code a) && (code a <=? 122))%Z; [right; lia|left; apply code_inj, E]. }
  repeat split.
  - intros ->. tauto.
  - intros E. destruct (U c _ E) as [->|K]; [reflexivity|tauto|]. apply (code_inj c "e"%char) in K. subst. tauto.
  - intros E. destruct (U c _ E) as [->|K]; [reflexivity|tauto|]. apply (code_inj c "x"%char) in K. subst. tauto.
Qed.

Lemma get_exp_ok e et t : exponent_text e et -> tail_ok t -> get_exp "E" (et ++ t) = (e, t).
Proof.
  intros [[-> ->]|(c & neg & sg & ds & Hc & Hs & Hn & Hd & -> & ->)] HT.
  { cbn [app]. destruct t as [|c t]; [reflexivity|]. apply tail_head in HT as (_ & H & _). unfold get_exp.
    destruct (ascii_dec (toupper c) "E"); [contradiction|reflexivity]. }
  apply digit_text_iff in Hd. unfold get_exp. cbn [app].
  assert (U : toupper c = "E"%char) by (destruct Hc as [<-|[<-|[]]]; reflexivity). rewrite U.
  destruct (ascii_dec "E" "E") as [_|N]; [|contradiction]. rewrite <- app_assoc, (get_sign_ok neg sg (ds ++ t) Hs).
  - rewrite span_digits_app by (auto using tail_no_digit).
    destruct ds; [contradiction|]. rewrite dval_ok by exact Hd. reflexivity.
  - destruct ds as [|d ds]; [contradiction|]. cbn [app]. apply Forall_cons_iff in Hd as [Hd _].
    split; (apply digit_neq; [exact Hd|reflexivity]).
Qed.

Lemma exponent_head e et : exponent_text e et -> match et with c :: _ => In c ["e"; "E"]%char | [] => True end.
Proof. intros [[_ ->]|(c & neg & sg & ds & Hc & _ & _ & _ & _ & ->)]; [exact I|exact Hc]. Qed.

Lemma exponent_no_digit e et t : exponent_text e et -> tail_ok t -> no_digit (et ++ t) /\ (forall u, et ++ t <> "."%char :: u).
Proof.
  intros H HT. apply exponent_head in H. destruct et as [|c u]; cbn [app].
  - split; [apply tail_no_digit, HT|]. intros u ->. apply tail_head in HT. tauto.
  - destruct H as [<-|[<-|[]]]; split; (reflexivity || intros v E; discriminate).
Qed.

Lemma mantissa_ok ip fp ft e et t : digit_text ip -> fraction_text fp ft -> exponent_text e et -> tail_ok t ->
  mantissa span_digits (ip ++ ft ++ et ++ t) = (ip, fp, et ++ t).
Proof.
  intros Hi [Hf [->|[-> ->]]] He HT; apply digit_text_iff in Hi, Hf; destruct (exponent_no_digit e et t He HT) as [N D]; unfold mantissa; cbn [app].
  - rewrite span_digits_app by (auto; reflexivity). destruct (ascii_dec "." ".") as [_|K]; [|contradiction].
    rewrite span_digits_app by auto. reflexivity.
  - rewrite span_digits_app by auto. destruct (et ++ t) as [|c u]; [reflexivity|].
    destruct (ascii_dec c ".") as [->|K]; [exfalso; exact (D u eq_refl)|reflexivity].
Qed.

(** Characters a number may begin with, after the sign. *)
Definition num_head (c : ascii) : Prop := isdigit c = true \/ c = "."%char.

Lemma num_head_cases c : num_head c -> In c ("."%char :: digit_chars).
Proof. intros [H| ->]; [right; apply isdigit_iff, H|left; reflexivity]. Qed.

Lemma body_head ip fp ft et : digit_text ip -> fraction_text fp ft -> ip ++ fp <> [] ->
  exists c t, ip ++ ft ++ et = c :: t /\ num_head c.
Proof.
  intros Hi [_ Hf] N. apply digit_text_iff in Hi. destruct ip as [|c t].
  - destruct Hf as [->|[-> ->]]; [|contradiction]. eexists _, _. split; [reflexivity|right; reflexivity].
  - apply Forall_cons_iff in Hi as [Hc _]. eexists _, _. split; [reflexivity|left; exact Hc].
Qed.

Lemma body_no_hex ip fp ft e et t : digit_text ip -> fraction_text fp ft -> exponent_text e et -> tail_ok t -> ip ++ fp <> [] ->
  after (str "0X") (ip ++ ft ++ et ++ t) = None.
Proof.
  intros Hi [Hd Hf] He HT N. apply digit_text_iff in Hi. apply exponent_head in He. apply tail_head in HT.
  assert (H2 : forall c t, after (str "0X") (c :: t) = if ascii_dec (toupper c) "0" then after (str "X") t else None) by reflexivity.
  assert (H1 : forall t, match t with c :: _ => toupper c <> "X"%char | [] => True end -> after (str "X") t = None).
  { intros [|c u] K; [reflexivity|]. cbn. destruct (ascii_dec (toupper c) "X"); [contradiction|reflexivity]. }
  assert (HE : match ft ++ et ++ t with c :: _ => toupper c <> "X"%char | [] => True end).
  { destruct Hf as [->|[_ ->]]; [discriminate|]. cbn [app]. destruct et as [|c u]; cbn [app].
    - destruct t; tauto.
    - destruct He as [<-|[<-|[]]]; discriminate. }
  destruct ip as [|c u]; cbn [app].
  - destruct Hf as [->|[-> ->]]; [reflexivity|contradiction].
  - rewrite H2. destruct (ascii_dec (toupper c) "0"); [|reflexivity]. apply H1.
    destruct u as [|c' u]; cbn [app]; [exact HE|].
    apply Forall_cons_iff in Hi as [_ Hi]. apply Forall_cons_iff in Hi as [Hi _]. apply isdigit_iff in Hi.
    clear -Hi. repeat (destruct Hi as [<-|Hi]; [discriminate|]). destruct Hi.
Qed.

Lemma skip_ws_app ws t : Forall (fun c => In c space_chars) ws -> match t with c :: _ => isspace c = false | [] => True end -> skip_ws (ws ++ t) = t.
Proof.
  intros F H. induction F as [|c u Hc F IH]; cbn [app].
  - destruct t as [|c t]; [reflexivity|]. cbn [skip_ws]. rewrite H. reflexivity.
  - cbn [skip_ws]. apply isspace_iff in Hc. rewrite Hc. exact IH.
Qed.

Lemma strtod_number_tail neg ds k s t : number_text neg ds k s -> tail_ok t ->
  strtod (s ++ t) = (nearest10 neg (value_of 0 ds) k, length s).
Proof.
  intros (ws & sg & ip & fp & ft & e & et & Hw & Hs & Hi & Hf & He & E & N & -> & ->) HT. subst ds.
  destruct (body_head ip fp ft (et ++ t) Hi Hf N) as (c & u & B & Hc). pose proof (num_head_cases c Hc) as HC.
  assert (A1 : after (str "INFINITY") (ip ++ ft ++ et ++ t) = None /\ after (str "INF") (ip ++ ft ++ et ++ t) = None /\ after (str "NAN") (ip ++ ft ++ et ++ t) = None).
  { rewrite B. repeat (destruct HC as [<-|HC]; [repeat split; reflexivity|]). destruct HC. }
  destruct A1 as (A1 & A2 & A3). unfold strtod.
  replace ((ws ++ sg ++ ip ++ ft ++ et) ++ t) with (ws ++ sg ++ ip ++ ft ++ et ++ t) by (rewrite !app_assoc; reflexivity).
  assert (LEN : (length (ws ++ sg ++ ip ++ ft ++ et ++ t) - length t)%nat = length (ws ++ sg ++ ip ++ ft ++ et)) by (rewrite !app_length; lia).
  rewrite skip_ws_app; [|exact Hw|].
  - rewrite (get_sign_ok neg sg _ Hs).
    + rewrite A1, A2, A3, (body_no_hex ip fp ft e et t Hi Hf He HT N). unfold decimal.
      rewrite (mantissa_ok ip fp ft e et t Hi Hf He HT), (get_exp_ok e et t He HT).
      assert (D : dval (ip ++ fp) = value_of 0 (ip ++ fp)) by (apply dval_ok, Forall_app; split; apply digit_text_iff; [exact Hi|apply Hf]).
      destruct (ip ++ fp); [contradiction|]. rewrite D, LEN. reflexivity.
    + rewrite B. clear -HC. repeat (destruct HC as [<-|HC]; [split; discriminate|]). destruct HC.
  - destruct Hs as [[_ [->| ->]]|[_ ->]]; cbn [app]; try reflexivity. rewrite B.
    clear -HC. repeat (destruct HC as [<-|HC]; [reflexivity|]). destruct HC.
Qed.

Lemma strtod_number neg ds k s : number_text neg ds k s -> strtod s = (nearest10 neg (value_of 0 ds) k, length s).
Proof. intros H. rewrite <- (app_nil_r s) at 1. exact (strtod_number_tail neg ds k s [] H I). Qed.

Lemma value_of_nonneg s : Forall (fun c => isdigit c = true) s -> (0 <= value_of 0 s)%Z.
Proof. intros F. pose proof (value_of_bound s 0 F ltac:(lia)). lia. Qed.

Lemma number_digits neg ds k s : number_text neg ds k s -> Forall (fun c => isdigit c = true) ds.
Proof.
  intros (ws & sg & ip & fp & ft & e & et & Hw & Hs & Hi & Hf & He & -> & N & _ & _).
  apply Forall_app. split; apply digit_text_iff; [exact Hi|apply Hf].
Qed.

Lemma number_value_cond neg ds k : number_value neg ds k = IZR (cond_Zopp neg (value_of 0 ds)) * bpow radix10 k.
Proof. unfold number_value. destruct neg; cbn [cond_Zopp]; [rewrite opp_IZR; ring|reflexivity]. Qed.

Lemma strtod_correct neg ds k s : number_text neg ds k s ->
  double_of neg (number_value neg ds k) (fst (strtod s)) /\ snd (strtod s) = length s.
Proof.
  intros H. pose proof (number_digits _ _ _ _ H) as F. rewrite (strtod_number neg ds k s H). cbn [fst snd]. split; [|reflexivity].
  rewrite number_value_cond. apply nearest10_ok, value_of_nonneg, F.
Qed.

(** ** The printed text is a decimal number *)
Lemma value_of_zeros j : forall a, value_of a (repeat "0"%char j) = (a * 10 ^ Z.of_nat j)%Z.
Proof.
  induction j as [|j IH]; intros a; [cbn; lia|]. cbn [repeat value_of]. rewrite IH, Nat2Z.inj_succ, Z.pow_succ_r by lia.
  change (code "0") with 48%Z. lia.
Qed.

Lemma value_of_lead0 j s : value_of 0 (repeat "0"%char j ++ s) = value_of 0 s.
Proof. rewrite value_of_app, value_of_zeros. reflexivity. Qed.

Lemma strip0_zeros s : exists j, s = strip0 s ++ repeat "0"%char j.
Proof.
  induction s as [|c t [j IH]]; [exists O; reflexivity|]. cbn [strip0]. destruct (strip0 t) as [|d u] eqn:E.
  - destruct (ascii_dec c "0") as [->|N].
    + exists (S j). cbn [app repeat]. rewrite IH at 1. reflexivity.
    + exists j. cbn [app] in IH |- *. rewrite IH at 1. reflexivity.
  - exists j. cbn [app] in IH |- *. rewrite IH at 1. reflexivity.
Qed.

Lemma zeros_digits j : Forall (fun c => isdigit c = true) (repeat "0"%char j).
Proof. apply Forall_forall. intros c H. apply repeat_spec in H. subst. reflexivity. Qed.

Lemma point_fraction fp : digit_text fp -> fraction_text fp (point fp).
Proof. intros H. split; [exact H|]. destruct fp; [right; auto|left; reflexivity]. Qed.

Lemma dec_digits z : (0 <= z)%Z -> dec z <> [] /\ Forall (fun c => isdigit c = true) (dec z) /\ value_of 0 (dec z) = z.
Proof. intros H. destruct (dec_spec z H) as [A [B [C _]]]. auto. Qed.

Lemma exp_text_ok k : exponent_text k (exp_text k).
Proof.
  right. unfold exp_text. destruct (dec_digits (Z.abs k) ltac:(lia)) as (N & F & V).
  eexists "e"%char, (k <? 0)%Z, [if (k <? 0)%Z then "-"%char else "+"%char], (if (Z.abs k <? 10)%Z then "0"%char :: dec (Z.abs k) else dec (Z.abs k)).
  split; [left; reflexivity|]. split. { destruct (k <? 0)%Z; [right|left]; auto. }
  split. { destruct (Z.abs k <? 10)%Z; [discriminate|exact N]. }
  split. { apply digit_text_iff. destruct (Z.abs k <? 10)%Z; [constructor; [reflexivity|exact F]|exact F]. }
  split; [|destruct (k <? 0)%Z, (Z.abs k <? 10)%Z; reflexivity].
  assert (V' : value_of 0 (if (Z.abs k <? 10)%Z then "0"%char :: dec (Z.abs k) else dec (Z.abs k)) = Z.abs k).
  { destruct (Z.abs k <? 10)%Z; exact V. }
  change (k = if (k <? 0)%Z then (- value_of 0 (if (Z.abs k <? 10)%Z then "0"%char :: dec (Z.abs k) else dec (Z.abs k) : bytes))%Z
    else value_of 0 (if (Z.abs k <? 10)%Z then "0"%char :: dec (Z.abs k) else dec (Z.abs k) : bytes)).
  rewrite V'. destruct (Z.ltb_spec k 0); lia.
Qed.

Lemma dec_six q : (100000 <= q < 1000000)%Z -> length (dec q) = 6%nat.
Proof.
  intros H. pose proof (dec_length q ltac:(lia)) as L. set (l := Z.of_nat (length (dec q))) in *.
  assert (l = 6)%Z; [|lia]. assert (P : (0 <= l)%Z) by lia.
  destruct (Z.lt_trichotomy l 6) as [K|[K|K]]; auto; exfalso.
  - assert (10 ^ l <= 10 ^ 5)%Z by (apply Z.pow_le_mono_r; lia). change (10 ^ 5)%Z with 100000%Z in H0. lia.
  - assert (10 ^ 6 <= 10 ^ (l - 1))%Z by (apply Z.pow_le_mono_r; lia). change (10 ^ 6)%Z with 1000000%Z in H0. lia.
Qed.

Definition sign_of (neg : bool) : bytes := if neg then ["-"%char] else [].

Lemma sign_of_ok neg : sign_text neg (sign_of neg).
Proof. destruct neg; [right|left]; auto. Qed.

Lemma Forall_firstn {A} (P : A -> Prop) l n : Forall P l -> Forall P (firstn n l).
Proof. intros H. rewrite <- (firstn_skipn n l) in H. apply Forall_app in H. apply H. Qed.
Lemma Forall_skipn {A} (P : A -> Prop) l n : Forall P l -> Forall P (skipn n l).
Proof. intros H. rewrite <- (firstn_skipn n l) in H. apply Forall_app in H. apply H. Qed.

Lemma strip0_digits s : Forall (fun c => isdigit c = true) s -> Forall (fun c => isdigit c = true) (strip0 s).
Proof. intros H. destruct (strip0_zeros s) as [j E]. rewrite E in H. apply Forall_app in H. apply H. Qed.

Lemma g6_text_number neg q k : (100000 <= q < 1000000)%Z ->
  exists ds k' j, number_text neg ds k' (sign_of neg ++ g6_text q k) /\ (0 <= j)%Z /\ k' = (k - 5 + j)%Z /\ q = (value_of 0 ds * 10 ^ j)%Z.
Proof.
  intros Hq. destruct (dec_digits q ltac:(lia)) as (N & F & V). pose proof (dec_six q Hq) as L.
  unfold g6_text. set (ds := dec q) in *.
  assert (SPL : forall n, (1 <= n <= 6)%nat -> exists j, skipn n ds = strip0 (skipn n ds) ++ repeat "0"%char j /\
            (length (strip0 (skipn n ds)) + j = 6 - n)%nat /\ q = (value_of 0 (firstn n ds ++ strip0 (skipn n ds)) * 10 ^ Z.of_nat j)%Z /\ firstn n ds <> []).
  { intros n Hn. destruct (strip0_zeros (skipn n ds)) as [j E]. exists j. split; [exact E|].
    assert (LS : length (skipn n ds) = (6 - n)%nat) by (rewrite skipn_length, L; reflexivity).
    split. { rewrite E in LS. rewrite app_length, repeat_length in LS. exact LS. }
    split. { rewrite <- value_of_zeros, <- value_of_app, <- app_assoc, <- E, firstn_skipn. symmetry. exact V. }
    intros K. apply (f_equal (@length _)) in K. rewrite firstn_length, L in K. cbn in K. lia. }
  destruct ((k <? -4) || (5 <? k))%Z eqn:G.
  - destruct (SPL 1%nat ltac:(lia)) as (j & E & LE & VQ & NE).
    eexists (firstn 1 ds ++ strip0 (skipn 1 ds)), _, (Z.of_nat j). split; [|split; [lia|split; [|exact VQ]]].
    + exists [], (sign_of neg), (firstn 1 ds), (strip0 (skipn 1 ds)), (point (strip0 (skipn 1 ds))), k, (exp_text k).
      split; [constructor|]. split; [apply sign_of_ok|]. split; [apply digit_text_iff, Forall_firstn, F|].
      split; [apply point_fraction, digit_text_iff, strip0_digits, Forall_skipn, F|].
      split; [apply exp_text_ok|]. split; [reflexivity|]. split; [|split; reflexivity].
      intros K. apply app_eq_nil in K. tauto.
    + lia.
  - apply orb_false_iff in G as [G1 G2]. apply Z.ltb_ge in G1, G2. destruct (Z.ltb_spec k 0) as [K|K].
    + destruct (strip0_zeros ds) as [j E].
      assert (LE : (length (strip0 ds) + j = 6)%nat) by (rewrite E, app_length, repeat_length in L; exact L).
      eexists ("0"%char :: repeat "0"%char (Z.to_nat (- k - 1)) ++ strip0 ds), _, (Z.of_nat j). split; [|split; [lia|split]].
      * exists [], (sign_of neg), ["0"%char], (repeat "0"%char (Z.to_nat (- k - 1)) ++ strip0 ds), (point (repeat "0"%char (Z.to_nat (- k - 1)) ++ strip0 ds)), 0%Z, [].
        split; [constructor|]. split; [apply sign_of_ok|]. split; [apply digit_text_iff; constructor; [reflexivity|constructor]|].
        split; [apply point_fraction, digit_text_iff, Forall_app; split; [apply zeros_digits|apply strip0_digits, F]|].
        split; [left; auto|]. split; [reflexivity|]. split; [discriminate|]. split; [reflexivity|]. rewrite app_nil_r. reflexivity.
      * rewrite app_length, repeat_length. lia.
      * change ("0"%char :: repeat "0"%char (Z.to_nat (- k - 1)) ++ strip0 ds) with (repeat "0"%char (S (Z.to_nat (- k - 1))) ++ strip0 ds).
        rewrite value_of_lead0, <- value_of_zeros, <- value_of_app, <- E. symmetry. exact V.
    + destruct (SPL (Z.to_nat (k + 1)) ltac:(lia)) as (j & E & LE & VQ & NE). set (n := Z.to_nat (k + 1)) in *.
      eexists (firstn n ds ++ strip0 (skipn n ds)), _, (Z.of_nat j). split; [|split; [lia|split; [|exact VQ]]].
      * exists [], (sign_of neg), (firstn n ds), (strip0 (skipn n ds)), (point (strip0 (skipn n ds))), 0%Z, [].
        split; [constructor|]. split; [apply sign_of_ok|]. split; [apply digit_text_iff, Forall_firstn, F|].
        split; [apply point_fraction, digit_text_iff, strip0_digits, Forall_skipn, F|].
        split; [left; auto|]. split; [reflexivity|]. split; [|split; [reflexivity|rewrite app_nil_r; reflexivity]].
        intros KK. apply app_eq_nil in KK. tauto.
      * lia.
Qed.

Lemma six_digits_opp y : six_digits (- y) = - six_digits y.
Proof. apply round_NE_opp. Qed.

Lemma six_digits_0 : six_digits 0 = 0.
Proof. unfold six_digits. apply round_0. typeclasses eauto. Qed.

Lemma g6_number x : is_finite x = true ->
  exists ds k, number_text (Bsign x) ds k (g6 x) /\ number_value (Bsign x) ds k = six_digits (B2R x).
Proof.
  destruct x as [s|s| |s m e H]; intros F; try discriminate.
  - exists ["0"%char], 0%Z. split.
    + exists [], (sign_of s), ["0"%char], [], [], 0%Z, []. split; [constructor|]. split; [apply sign_of_ok|].
      split; [apply digit_text_iff; constructor; [reflexivity|constructor]|]. split; [split; [constructor|right; auto]|].
      split; [left; auto|]. split; [reflexivity|]. split; [discriminate|]. split; [reflexivity|]. destruct s; reflexivity.
    + unfold number_value. cbn [B2R Bsign]. rewrite six_digits_0. change (value_of 0 ["0"%char]) with 0%Z. cbv zeta. rewrite Rmult_0_l. destruct s; ring.
  - cbn [Bsign g6]. destruct (six m e) as [q k] eqn:E. destruct (six_ok m e q k E) as [Hq V].
    destruct (g6_text_number s q k Hq) as (ds & k' & j & T & J & -> & Q). exists ds, (k - 5 + j)%Z. split; [exact T|].
    assert (P : IZR (value_of 0 ds) * bpow radix10 (k - 5 + j) = six_digits (IZR (Zpos m) * bpow radix2 e)).
    { rewrite <- V, Q, mult_IZR, <- bpow10_pos, bpow_plus by lia. ring. }
    unfold number_value. rewrite P. cbn [B2R]. unfold F2R, cond_Zopp. cbn [Fnum Fexp]. destruct s; [|reflexivity].
    rewrite <- six_digits_opp. f_equal. rewrite opp_IZR. ring.
Qed.

Lemma strtod_g6 x : is_finite x = true ->
  double_of (Bsign x) (six_digits (B2R x)) (fst (strtod (g6 x))) /\ snd (strtod (g6 x)) = length (g6 x).
Proof. intros F. destruct (g6_number x F) as (ds & k & T & <-). apply strtod_correct, T. Qed.

(** ** Six digits survive the way through a double *)
Lemma FLX6_fmt y : has_six_digits y <-> generic_format radix10 (FLX_exp 6) y.
Proof.
  split.
  - intros (d & e & -> & H). apply generic_format_FLX. exists (Float radix10 d e); [reflexivity|exact H].
  - intros H. apply FLX_format_generic in H; [|reflexivity]. destruct H as [[d e] -> L]. exists d, e. split; [reflexivity|exact L].
Qed.

Lemma FLX6_close y x : 0 < y -> generic_format radix10 (FLX_exp 6) y -> Rabs (x - y) <= / 10000000 * y -> six_digits x = y.
Proof.
  intros P F H. unfold six_digits.
  assert (B6 : bpow radix10 (-6) = / 1000000) by reflexivity.
  assert (U : y * / 1000000 <= ulp radix10 (FLX_exp 6) y).
  { pose proof (ulp_FLX_ge radix10 6 y) as U. rewrite Rabs_pos_eq in U by lra. change (- (6))%Z with (-6)%Z in U. rewrite B6 in U. exact U. }
  apply Rabs_le_inv in H.
  apply Rle_antisym.
  - apply round_N_le_midp; [typeclasses eauto|exact F|]. rewrite succ_eq_pos by lra. lra.
  - apply round_N_ge_midp; [typeclasses eauto|exact F|].
    assert (Q : 0 <= pred radix10 (FLX_exp 6) y) by (apply pred_ge_0; [typeclasses eauto|lra|exact F]).
    assert (E : pred radix10 (FLX_exp 6) y + ulp radix10 (FLX_exp 6) (pred radix10 (FLX_exp 6) y) = y) by (apply pred_plus_ulp; [typeclasses eauto|lra|exact F]).
    set (p := pred radix10 (FLX_exp 6) y) in *.
    assert (U2 : p * / 1000000 <= ulp radix10 (FLX_exp 6) p).
    { pose proof (ulp_FLX_ge radix10 6 p) as U2. rewrite Rabs_pos_eq in U2 by lra. change (- (6))%Z with (-6)%Z in U2. rewrite B6 in U2. exact U2. }
    lra.
Qed.

Lemma to_double_close y : bpow radix2 (-1022) <= Rabs y -> Rabs (to_double y - y) <= / 10000000 * Rabs y.
Proof.
  intros H. pose proof (relative_error_N_FLT radix2 (-1074) 53 prec_gt_0_53 (fun z => negb (Z.even z)) y) as E.
  assert (H' : bpow radix2 (-1074 + 53 - 1) <= Rabs y) by exact H. specialize (E H').
  eapply Rle_trans; [exact E|]. apply Rmult_le_compat_r; [apply Rabs_pos|].
  assert (B : bpow radix2 (- (53) + 1) = / 4503599627370496) by reflexivity. rewrite B. lra.
Qed.

Lemma six_of_double y : has_six_digits y -> bpow radix2 (-1022) <= Rabs y -> six_digits (to_double y) = y.
Proof.
  intros F%FLX6_fmt H. assert (P : 0 < Rabs y) by (pose proof (bpow_gt_0 radix2 (-1022)); lra).
  destruct (Rle_or_lt 0 y) as [S|S].
  - rewrite Rabs_pos_eq in P by lra. apply FLX6_close; [lra|exact F|].
    pose proof (to_double_close y H) as C. rewrite (Rabs_pos_eq y) in C by lra. exact C.
  - assert (O : to_double y = - to_double (- y)). { unfold to_double. rewrite round_NE_opp. ring. }
    rewrite O, six_digits_opp. rewrite (FLX6_close (- y) (to_double (- y))); [ring|lra|apply generic_format_opp, F|].
    pose proof (to_double_close (- y)) as C. rewrite Rabs_Ropp in C. specialize (C H). rewrite (Rabs_left y) in C by lra. exact C.
Qed.

Lemma six_digits_idem y : has_six_digits (six_digits y).
Proof. apply FLX6_fmt. unfold six_digits. apply generic_format_round; typeclasses eauto. Qed.

Lemma six_digits_fix y : has_six_digits y <-> six_digits y = y.
Proof.
  split; intros H.
  - apply FLX6_fmt in H. unfold six_digits. apply round_generic; [typeclasses eauto|exact H].
  - rewrite <- H. apply six_digits_idem.
Qed.

Lemma to_double_in (x : f64) : is_finite x = true -> to_double (B2R x) = B2R x /\ Rabs (B2R x) < bpow radix2 1024.
Proof.
  intros F. split; [|apply abs_B2R_lt_emax].
  unfold to_double. apply round_generic; [typeclasses eauto|]. apply (generic_format_B2R 53 1024 x).
Qed.

Lemma double_of_self (x : f64) : is_finite x = true -> double_of (Bsign x) (B2R x) x.
Proof. intros F. destruct (to_double_in x F) as [E L]. left. rewrite E. auto. Qed.

Lemma six_round_trip (x : f64) y : is_finite x = true -> B2R x = to_double y -> has_six_digits y -> bpow radix2 (-1022) <= Rabs y ->
  strtod (g6 x) = (x, length (g6 x)).
Proof.
  intros F E H L. destruct (strtod_g6 x F) as [D N]. destruct (strtod (g6 x)) as [v n]. cbn [fst snd] in *. subst n. f_equal.
  rewrite E, (six_of_double y H L) in D. apply (double_of_unique (Bsign x) y); [exact D|].
  destruct (to_double_in x F) as [_ L2]. left. rewrite <- E. auto.
Qed.

(** The text is determined by the six digits and the sign. *)
Lemma six_unique q k q' k' : (100000 <= q < 1000000)%Z -> (100000 <= q' < 1000000)%Z ->
  IZR q * bpow radix10 (k - 5) = IZR q' * bpow radix10 (k' - 5) -> q = q' /\ k = k'.
Proof.
  intros H H' E.
  assert (M : forall q k, (100000 <= q < 1000000)%Z -> mag radix10 (IZR q * bpow radix10 (k - 5)) = (k + 1)%Z :> Z).
  { clear. intros q k H. apply mag_unique. rewrite Rabs_pos_eq.
    - replace (k + 1 - 1)%Z with (5 + (k - 5))%Z by lia. replace (k + 1)%Z with (6 + (k - 5))%Z by lia. rewrite !bpow_plus.
      pose proof (bpow_gt_0 radix10 (k - 5)). change (bpow radix10 5) with (IZR 100000). change (bpow radix10 6) with (IZR 1000000).
      split; [apply Rmult_le_compat_r; [lra|apply IZR_le; lia]|apply Rmult_lt_compat_r; [lra|apply IZR_lt; lia]].
    - apply Rmult_le_pos; [apply IZR_le; lia|apply bpow_ge_0]. }
  assert (K : k = k'). { pose proof (M q k H) as A. pose proof (M q' k' H') as B. rewrite E in A. rewrite A in B. lia. }
  subst k'. split; [|reflexivity]. apply Rmult_eq_reg_r in E; [apply eq_IZR, E|]. apply Rgt_not_eq, bpow_gt_0.
Qed.

Lemma six_pos m e q k : six m e = (q, k) -> 0 < six_digits (IZR (Zpos m) * bpow radix2 e).
Proof.
  intros E. destruct (six_ok m e q k E) as [H <-]. apply Rmult_lt_0_compat; [apply IZR_lt; lia|apply bpow_gt_0].
Qed.

Lemma B2R_finite s m e H : B2R (B754_finite s m e H : f64) = (if s then - (IZR (Zpos m) * bpow radix2 e) else IZR (Zpos m) * bpow radix2 e).
Proof. cbn [B2R]. unfold F2R, cond_Zopp. cbn [Fnum Fexp]. destruct s; [rewrite opp_IZR; ring|reflexivity]. Qed.

Lemma g6_same (x y : f64) : is_finite x = true -> is_finite y = true -> Bsign x = Bsign y -> six_digits (B2R x) = six_digits (B2R y) -> g6 x = g6 y.
Proof.
  assert (Z0 : forall s m e H, six_digits (B2R (B754_finite s m e H : f64)) <> 0).
  { intros s m e H. rewrite B2R_finite. destruct (six m e) as [q k] eqn:E. pose proof (six_pos m e q k E).
    destruct s; [rewrite six_digits_opp|]; lra. }
  destruct x as [s|s| |s m e Hx], y as [s'|s'| |s' m' e' Hy]; intros F F'; try discriminate; cbn [Bsign]; intros <- E; try reflexivity.
  - exfalso. apply (Z0 s m' e' Hy). rewrite <- E. apply six_digits_0.
  - exfalso. apply (Z0 s m e Hx). rewrite E. apply six_digits_0.
  - rewrite !B2R_finite in E. cbn [g6].
    assert (E' : six_digits (IZR (Zpos m) * bpow radix2 e) = six_digits (IZR (Zpos m') * bpow radix2 e')).
    { destruct s; [|exact E]. rewrite !six_digits_opp in E. lra. }
    destruct (six m e) as [q k] eqn:K, (six m' e') as [q' k'] eqn:K'.
    destruct (six_ok _ _ _ _ K) as [H V], (six_ok _ _ _ _ K') as [H' V']. rewrite <- V, <- V' in E'.
    destruct (six_unique q k q' k' H H' E') as [-> ->]. reflexivity.
Qed.

(** Writing what was read back gives the same text. *)
Lemma g6_stable (x : f64) : is_finite x = true -> normal_range (six_digits (B2R x)) -> g6 (fst (strtod (g6 x))) = g6 x.
Proof.
  intros F [L U]. destruct (strtod_g6 x F) as [[(F' & E & S & _)|[_ B]] _].
  - apply g6_same; auto. rewrite E. rewrite six_of_double; [reflexivity|apply six_digits_idem|exact L].
  - exfalso. assert (Rabs (to_double (six_digits (B2R x))) <= bpow radix2 1023); [|pose proof (bpow_lt radix2 1023 1024 ltac:(lia)); lra].
    unfold to_double. apply abs_round_le_generic; [typeclasses eauto|typeclasses eauto| |lra].
    apply generic_format_bpow. vm_compute. discriminate.
Qed.

(** ** Whole numbers *)
Lemma dec_pos_head z : (0 < z)%Z -> hd_error (dec z) <> Some "0"%char.
Proof.
  intros H K. destruct (dec_spec z ltac:(lia)) as (_ & _ & V & D & _). rewrite (D K) in V. change (value_of 0 ["0"%char]) with 0%Z in V. lia.
Qed.

Lemma dec_shift z j : (0 < z)%Z -> dec (z * 10 ^ Z.of_nat j) = dec z ++ repeat "0"%char j.
Proof.
  intros H. assert (P : (0 < 10 ^ Z.of_nat j)%Z) by (apply Z.pow_pos_nonneg; lia).
  assert (Q : (0 < z * 10 ^ Z.of_nat j)%Z) by nia.
  destruct (dec_digits z ltac:(lia)) as (N & F & V). destruct (dec_digits (z * 10 ^ Z.of_nat j) ltac:(lia)) as (N' & F' & V').
  apply canonical_nat_unique; auto.
  - intros K. apply app_eq_nil in K. tauto.
  - apply Forall_app. split; [exact F|apply zeros_digits].
  - intros K. exfalso. exact (dec_pos_head _ Q K).
  - intros K. exfalso. apply (dec_pos_head z H). destruct (dec z); [contradiction|exact K].
  - rewrite V', value_of_app, V, value_of_zeros. reflexivity.
Qed.

Lemma strip0_all j : strip0 (repeat "0"%char j) = [].
Proof. induction j as [|j IH]; [reflexivity|]. cbn [repeat strip0]. rewrite IH. reflexivity. Qed.

Lemma small_six z : (Z.abs z < 1000000)%Z -> has_six_digits (IZR z).
Proof. intros H. exists z, 0%Z. split; [cbn; ring|exact H]. Qed.

Lemma six_int m e q k z : six m e = (q, k) -> (0 < z < 1000000)%Z -> IZR (Zpos m) * bpow radix2 e = IZR z ->
  g6_text q k = dec z.
Proof.
  intros E H V. destruct (six_ok m e q k E) as [Hq S]. rewrite V in S.
  rewrite (proj1 (six_digits_fix (IZR z)) (small_six z ltac:(lia))) in S.
  pose proof (dec_length z ltac:(lia)) as L. set (l := length (dec z)) in *.
  assert (HL : (1 <= Z.of_nat l <= 6)%Z).
  { split.
    - destruct (Z.le_gt_cases 1 (Z.of_nat l)); auto. replace (Z.of_nat l) with 0%Z in L by lia. cbn in L. lia.
    - destruct (Z.le_gt_cases (Z.of_nat l) 6); auto. assert (10 ^ 6 <= 10 ^ (Z.of_nat l - 1))%Z by (apply Z.pow_le_mono_r; lia).
      change (10 ^ 6)%Z with 1000000%Z in H1. lia. }
  assert (W : (100000 <= z * 10 ^ Z.of_nat (6 - l) < 1000000)%Z).
  { assert (P : (0 < 10 ^ Z.of_nat (6 - l))%Z) by (apply Z.pow_pos_nonneg; lia). split.
    - transitivity (10 ^ (Z.of_nat l - 1) * 10 ^ Z.of_nat (6 - l))%Z; [|nia]. rewrite <- Z.pow_add_r by lia.
      replace (Z.of_nat l - 1 + Z.of_nat (6 - l))%Z with 5%Z by lia. cbn. lia.
    - apply Z.lt_le_trans with (10 ^ Z.of_nat l * 10 ^ Z.of_nat (6 - l))%Z; [nia|]. rewrite <- Z.pow_add_r by lia.
      replace (Z.of_nat l + Z.of_nat (6 - l))%Z with 6%Z by lia. cbn. lia. }
  assert (U : IZR q * bpow radix10 (k - 5) = IZR (z * 10 ^ Z.of_nat (6 - l)) * bpow radix10 (Z.of_nat l - 1 - 5)).
  { rewrite S, mult_IZR, <- bpow10_pos, Rmult_assoc, <- bpow_plus by lia.
    replace (Z.of_nat (6 - l) + (Z.of_nat l - 1 - 5))%Z with 0%Z by lia. cbn [bpow]. ring. }
  destruct (six_unique q k _ _ Hq W U) as [-> ->]. unfold g6_text.
  rewrite dec_shift by lia.
  destruct ((Z.of_nat l - 1 <? -4) || (5 <? Z.of_nat l - 1))%Z eqn:G; [exfalso; apply orb_true_iff in G; rewrite !Z.ltb_lt in G; lia|].
  destruct (Z.ltb_spec (Z.of_nat l - 1) 0) as [K|K]; [lia|].
  replace (Z.to_nat (Z.of_nat l - 1 + 1)) with l by lia.
  rewrite firstn_app, skipn_app. subst l. rewrite firstn_all, skipn_all, Nat.sub_diag. cbn [firstn skipn app].
  rewrite strip0_all. cbn [point]. rewrite !app_nil_r. reflexivity.
Qed.

Lemma sign_pos (x : f64) z : is_finite x = true -> B2R x = IZR z -> z <> 0%Z -> Bsign x = (z <? 0)%Z.
Proof.
  intros F E N. destruct x as [s|s| |s m e H]; try discriminate.
  - exfalso. apply N. apply eq_IZR. rewrite <- E. reflexivity.
  - rewrite B2R_finite in E. cbn [Bsign]. assert (P : 0 < IZR (Zpos m) * bpow radix2 e) by (apply Rmult_lt_0_compat; [apply IZR_lt; lia|apply bpow_gt_0]).
    destruct s; symmetry; [apply Z.ltb_lt, lt_IZR; lra|apply Z.ltb_ge, le_IZR; lra].
Qed.

Lemma g6_int z : (Z.abs z < 1000000)%Z -> g6 (of_int z) = itoa z.
Proof.
  intros H. destruct (Z.eq_dec z 0) as [->|N]; [reflexivity|].
  assert (H' : (Z.abs z <= 2 ^ 53)%Z) by (change (2 ^ 53)%Z with 9007199254740992%Z; lia).
  destruct (of_int_exact z H') as [F E]. pose proof (sign_pos _ z F E N) as S.
  destruct (of_int z) as [s|s| |s m e Hb] eqn:X; try discriminate.
  - exfalso. apply N. apply eq_IZR. rewrite <- E. reflexivity.
  - rewrite B2R_finite in E. cbn [Bsign] in S. subst s. cbn [g6]. destruct (six m e) as [q k] eqn:K. unfold itoa.
    destruct (Z.ltb_spec z 0) as [L|L].
    + rewrite (six_int m e q k (- z) K); [reflexivity|lia|]. rewrite opp_IZR. lra.
    + rewrite (six_int m e q k z K); [reflexivity|lia|exact E].
Qed.

Lemma to_double_int z : (Z.abs z <= 2 ^ 53)%Z -> to_double (IZR z) = IZR z.
Proof.
  intros H. destruct (of_int_exact z H) as [F E]. destruct (to_double_in (of_int z) F) as [T _]. rewrite E in T. exact T.
Qed.

Lemma of_int_double z : (Z.abs z <= 2 ^ 53)%Z -> double_of (z <? 0)%Z (IZR z) (of_int z).
Proof.
  intros H. destruct (of_int_exact z H) as [F E]. left. rewrite to_double_int by exact H. split; [exact F|]. split; [exact E|].
  split.
  - destruct (Z.eq_dec z 0) as [->|N]; [reflexivity|]. apply sign_pos; auto.
  - rewrite <- E. apply abs_B2R_lt_emax.
Qed.

(** Six digits of a whole number are a whole number. *)
Lemma six_digits_int z : exists w, six_digits (IZR z) = IZR w /\ (Z.abs w <= 10 * Z.abs z)%Z.
Proof.
  destruct (Z.eq_dec z 0) as [->|N]. { exists 0%Z. split; [apply six_digits_0|lia]. }
  destruct (Z.lt_ge_cases (Z.abs z) 1000000) as [H|H].
  { exists z. split; [|lia]. apply six_digits_fix, small_six, H. }
  assert (M : (6 <= mag radix10 (IZR z))%Z).
  { assert (A : (5 < mag radix10 (IZR z))%Z); [|lia]. apply mag_gt_bpow. rewrite <- abs_IZR. change (bpow radix10 5) with (IZR 100000). apply IZR_le. lia. }
  unfold six_digits, round, F2R. cbn [Fnum Fexp]. unfold cexp, FLX_exp.
  set (k := (mag radix10 (IZR z) - 6)%Z). assert (K : (0 <= k)%Z) by (unfold k; lia).
  set (n := ZnearestE (scaled_mantissa radix10 (fun e => (e - 6)%Z) (IZR z))). exists (n * 10 ^ k)%Z. split.
  - rewrite mult_IZR, <- bpow10_pos by exact K. reflexivity.
  - assert (E : six_digits (IZR z) = IZR (n * 10 ^ k)). { rewrite mult_IZR, <- bpow10_pos by exact K. reflexivity. }
    apply le_IZR. rewrite abs_IZR, <- E, mult_IZR, abs_IZR.
    assert (B : Rabs (six_digits (IZR z)) <= bpow radix10 (mag radix10 (IZR z))).
    { unfold six_digits. apply abs_round_le_generic; [typeclasses eauto|typeclasses eauto|apply generic_format_bpow; unfold FLX_exp; lia|]. left. apply bpow_mag_gt. }
    eapply Rle_trans; [exact B|]. pose proof (bpow_mag_le radix10 (IZR z) ltac:(intros K0; apply N, eq_IZR, K0)) as G.
    replace (mag radix10 (IZR z) : Z) with (1 + (mag radix10 (IZR z) - 1))%Z by lia. rewrite bpow_plus. change (bpow radix10 1) with 10. lra.
Qed.

Lemma int_survives z : (Z.abs z <= 2 ^ 49)%Z -> (strtod (g6 (of_int z)) = (of_int z, length (g6 (of_int z))) <-> has_six_digits (IZR z)).
Proof.
  intros H. change (2 ^ 49)%Z with 562949953421312%Z in H. assert (H' : (Z.abs z <= 2 ^ 53)%Z) by (change (2 ^ 53)%Z with 9007199254740992%Z; lia).
  destruct (of_int_exact z H') as [F E]. destruct (six_digits_int z) as (w & W & B).
  assert (T : to_double (IZR w) = IZR w) by (apply to_double_int; change (2 ^ 53)%Z with 9007199254740992%Z; lia).
  split; intros K.
  - destruct (strtod_g6 (of_int z) F) as [D _]. rewrite K in D. cbn [fst] in D. rewrite E, W in D.
    apply six_digits_fix. rewrite W. destruct D as [(_ & X & _)|[X _]].
    + rewrite E, T in X. congruence.
    + rewrite X in F. discriminate.
  - destruct (Z.eq_dec z 0) as [->|N]; [vm_compute; reflexivity|]. apply six_round_trip with (IZR z); auto.
    + rewrite to_double_int by exact H'. exact E.
    + apply Rle_trans with 1; [change 1 with (bpow radix2 0); apply bpow_le; lia|]. rewrite <- abs_IZR. apply (IZR_le 1). lia.
Qed.

(** ** IsDouble *)
Lemma IsDouble_number neg ds k s : number_text neg ds k s ->
  exists x, IsDouble f64 strtod s = (x, true) /\ double_of neg (number_value neg ds k) x.
Proof.
  intros H. destruct (strtod_correct neg ds k s H) as [D N]. unfold IsDouble. destruct (strtod s) as [x n]. cbn [fst snd] in *. subst n.
  exists x. rewrite Nat.eqb_refl. auto.
Qed.

Lemma IsDouble_junk neg ds k s c r : number_text neg ds k s -> ~ In c continues -> snd (IsDouble f64 strtod (s ++ c :: r)) = false.
Proof.
  intros H K. unfold IsDouble. rewrite (strtod_number_tail neg ds k s (c :: r) H K). cbn [snd].
  apply Nat.eqb_neq. rewrite app_length. cbn [length]. lia.
Qed.

Lemma itoa_number z : number_text (z <? 0)%Z (dec (Z.abs z)) 0 (itoa z).
Proof.
  destruct (dec_digits (Z.abs z) ltac:(lia)) as (N & F & V).
  exists [], (sign_of (z <? 0)%Z), (dec (Z.abs z)), [], [], 0%Z, []. split; [constructor|]. split; [apply sign_of_ok|].
  split; [apply digit_text_iff, F|]. split; [split; [constructor|right; auto]|]. split; [left; auto|].
  split; [rewrite app_nil_r; reflexivity|]. split; [exact N|]. split; [reflexivity|].
  cbn [app]. rewrite app_nil_r. unfold itoa. destruct (Z.ltb_spec z 0) as [L|L].
  - rewrite Z.abs_neq by lia. reflexivity.
  - rewrite Z.abs_eq by lia. reflexivity.
Qed.

Lemma IsDouble_itoa z : (Z.abs z <= 2 ^ 53)%Z -> IsDouble f64 strtod (itoa z) = (of_int z, true).
Proof.
  intros H. destruct (IsDouble_number _ _ _ _ (itoa_number z)) as (x & E & D). rewrite E. f_equal.
  apply (double_of_unique (z <? 0)%Z (IZR z)); [|apply of_int_double, H].
  replace (IZR z) with (number_value (z <? 0) (dec (Z.abs z)) 0)%Z; [exact D|].
  unfold number_value. destruct (dec_digits (Z.abs z) ltac:(lia)) as (_ & _ & ->). cbn [bpow]. rewrite Rmult_1_r.
  destruct (Z.ltb_spec z 0); [rewrite <- opp_IZR|]; f_equal; lia.
Qed.
