(** Lemmas about dates. *)
From Coq Require Import ZArith Ascii String List Bool Lia ZifyBool.
From Verif Require Import Base StrModel StrSpec StrProofs ScanModel TimeModel TimeSpec.
Import ListNotations.
Open Scope Z_scope.

Ltac zeuclid := Z.to_euclidean_division_equations; lia.

Lemma leap_rem y : IsLeapYear y = greg_leap y.
Proof.
  unfold IsLeapYear, greg_leap.
  assert (E : forall k, 0 < k -> (Z.rem y k =? 0) = (y mod k =? 0)).
  { intros k Hk. destruct (Z.eqb_spec (Z.rem y k) 0) as [H|H].
    - symmetry. apply Z.eqb_eq. apply Z.mod_divide; [lia|]. apply Z.rem_divide in H; [auto|lia].
    - symmetry. apply Z.eqb_neq. intros H2. apply H. apply Z.rem_divide; [lia|]. apply Z.mod_divide in H2; [auto|lia]. }
  rewrite !E by lia. auto.
Qed.

Lemma leap_div y : greg_leap y = true <-> (4 | y) /\ (~ (100 | y) \/ (400 | y)).
Proof.
  unfold greg_leap. rewrite <- !Z.mod_divide by lia. lia.
Qed.

(** Number of leap days up to year y. *)
Definition leaps (y : Z) : Z := y / 4 - y / 100 + y / 400.

Lemma leaps_step y : leaps y - leaps (y - 1) = if greg_leap y then 1 else 0.
Proof. unfold leaps, greg_leap. destruct ((y mod 4 =? 0) && _) eqn:E; zeuclid. Qed.

Lemma greg_leap_shift y : greg_leap (y + 4800) = greg_leap y.
Proof.
  unfold greg_leap. replace (y + 4800) with (y + 1200 * 4) at 1 by lia.
  replace ((y + 4800) mod 100) with (y mod 100) by (replace (y + 4800) with (y + 48 * 100) by lia; rewrite Z_mod_plus_full; auto).
  replace ((y + 4800) mod 400) with (y mod 400) by (replace (y + 4800) with (y + 12 * 400) by lia; rewrite Z_mod_plus_full; auto).
  rewrite Z_mod_plus_full. auto.
Qed.

Lemma months m : 1 <= m <= 12 ->
  m = 1 \/ m = 2 \/ m = 3 \/ m = 4 \/ m = 5 \/ m = 6 \/ m = 7 \/ m = 8 \/ m = 9 \/ m = 10 \/ m = 11 \/ m = 12.
Proof. lia. Qed.
Ltac by_month H := destruct (months _ H) as [->|[->|[->|[->|[->|[->|[->|[->|[->|[->|[->| ->]]]]]]]]]]].

(** The year part of JulianDay. *)
Definition ypart (y : Z) : Z := 365 * y + leaps y - 32045.

Lemma ypart_step y : ypart (y + 4800) = ypart (y + 4799) + 365 + (if greg_leap y then 1 else 0).
Proof.
  pose proof (leaps_step (y + 4800)) as HL. rewrite greg_leap_shift in HL.
  replace (y + 4800 - 1) with (y + 4799) in HL by lia. unfold ypart. lia.
Qed.

Lemma JulianDay_parts y m d : -4799 <= y -> 1 <= m <= 12 ->
  JulianDay y m d = d + (if m <=? 2 then (153 * (m + 9) + 2) / 5 + ypart (y + 4799)
                         else (153 * (m - 3) + 2) / 5 + ypart (y + 4800)).
Proof.
  intros Hy Hm. unfold JulianDay, ypart, leaps.
  assert (Q : forall x k, 0 <= x -> 0 < k -> Z.quot x k = x / k) by (intros; apply Z.quot_div_nonneg; lia).
  rewrite (Q (14 - m)) by lia.
  assert (A : (14 - m) / 12 = if m <=? 2 then 1 else 0) by (destruct (m <=? 2) eqn:E; zeuclid).
  rewrite A. destruct (m <=? 2) eqn:E.
  - rewrite !Q by lia. replace (y + 4800 - 1) with (y + 4799) by lia. replace (m + 12 * 1 - 3) with (m + 9) by lia. lia.
  - rewrite !Q by lia. replace (y + 4800 - 0) with (y + 4800) by lia. replace (m + 12 * 0 - 3) with (m - 3) by lia. lia.
Qed.

Lemma days_before_val y m : 1 <= m <= 12 ->
  days_before y m = (if m <=? 2 then 31 * (m - 1)
                     else (153 * (m - 3) + 2) / 5 + 59 + (if greg_leap y then 1 else 0)).
Proof.
  intros Hm. by_month Hm; unfold days_before, month_len; cbn -[greg_leap]; destruct (greg_leap y); reflexivity.
Qed.

Lemma JulianDay_value y m d : -4799 <= y -> 1 <= m <= 12 ->
  JulianDay y m d = JulianDay y 1 1 + days_before y m + d - 1.
Proof.
  intros Hy Hm. rewrite !JulianDay_parts by lia. rewrite days_before_val by auto. rewrite ypart_step.
  change (1 <=? 2) with true. cbv iota. destruct (m <=? 2) eqn:E; [|lia].
  assert (M : m = 1 \/ m = 2) by lia. destruct M as [-> | ->].
  - change ((153 * (1 + 9) + 2) / 5) with 306. lia.
  - change ((153 * (1 + 9) + 2) / 5) with 306. change ((153 * (2 + 9) + 2) / 5) with 337. lia.
Qed.

Lemma JulianDay_year y : -4799 <= y ->
  JulianDay (y + 1) 1 1 = JulianDay y 1 1 + 365 + (if greg_leap y then 1 else 0).
Proof.
  intros Hy. rewrite !JulianDay_parts by lia. change (1 <=? 2) with true. cbv iota.
  replace (y + 1 + 4799) with (y + 4800) by lia. rewrite ypart_step. lia.
Qed.

Lemma days_before_next y m : 1 <= m < 12 -> days_before y (m + 1) = days_before y m + month_len y m.
Proof.
  intros Hm. unfold days_before. replace (Z.to_nat (m + 1 - 1)) with (S (Z.to_nat (m - 1))) by lia.
  rewrite seq_S, fold_left_app. cbn [fold_left]. do 2 f_equal. lia.
Qed.

Lemma month_len_pos y m : 1 <= month_len y m <= 31.
Proof. unfold month_len. destruct (m =? 2); [destruct (greg_leap y); lia|]. destruct ((m =? 4) || (m =? 6) || (m =? 9) || (m =? 11)); lia. Qed.

Lemma days_before_bound y m d : valid_date y m d ->
  0 <= days_before y m + d - 1 < 365 + (if greg_leap y then 1 else 0).
Proof.
  intros [Hm Hd]. rewrite days_before_val by auto. unfold month_len in Hd.
  by_month Hm; cbn [Z.eqb Pos.eqb orb Z.leb Z.compare Pos.compare Pos.compare_cont] in *; destruct (greg_leap y); zeuclid.
Qed.

Lemma next_valid y m d y' m' d' : valid_date y m d -> next_day (y, m, d) = (y', m', d') ->
  valid_date y' m' d' /\ (y' = y \/ y' = y + 1).
Proof.
  unfold valid_date, next_day. intros [Hm Hd]. pose proof (month_len_pos y (m + 1)). pose proof (month_len_pos (y + 1) 1).
  destruct (Z.ltb_spec d (month_len y m)); [|destruct (Z.ltb_spec m 12)]; intros [= <- <- <-]; lia.
Qed.

Theorem JulianDay_next y m d y' m' d' : -4799 <= y -> valid_date y m d -> next_day (y, m, d) = (y', m', d') ->
  JulianDay y' m' d' = JulianDay y m d + 1.
Proof.
  intros Hy [Hm Hd] E. unfold next_day in E.
  destruct (Z.ltb_spec d (month_len y m)); [|destruct (Z.ltb_spec m 12)]; injection E as <- <- <-.
  - rewrite !(JulianDay_value y m) by lia. lia.
  - rewrite (JulianDay_value y (m + 1)), (JulianDay_value y m) by lia. rewrite days_before_next by lia. lia.
  - rewrite JulianDay_year by lia. rewrite (JulianDay_value y m) by lia.
    assert (m = 12) as -> by lia. change (month_len y 12) with 31 in *. assert (d = 31) as -> by lia.
    rewrite days_before_val by lia. change (12 <=? 2) with false. cbv iota.
    change ((153 * (12 - 3) + 2) / 5) with 275. destruct (greg_leap y); lia.
Qed.

Lemma JulianDay_year_mono y1 y2 : -4799 <= y1 <= y2 -> JulianDay y1 1 1 + 365 * (y2 - y1) <= JulianDay y2 1 1.
Proof.
  intros H. assert (K : forall n, JulianDay y1 1 1 + 365 * Z.of_nat n <= JulianDay (y1 + Z.of_nat n) 1 1).
  { induction n as [|n IH]; [change (Z.of_nat 0) with 0; rewrite ?Z.mul_0_r, ?Z.add_0_r; lia|].
    rewrite Nat2Z.inj_succ. unfold Z.succ. rewrite Z.add_assoc, JulianDay_year by lia.
    destruct (greg_leap (y1 + Z.of_nat n)); lia. }
  specialize (K (Z.to_nat (y2 - y1))). rewrite Z2Nat.id in K by lia. replace (y1 + (y2 - y1)) with y2 in K by lia. lia.
Qed.

Lemma days_before_mono y m m' : 1 <= m -> m < m' -> m' <= 12 -> days_before y m + month_len y m <= days_before y m'.
Proof.
  intros H1 H2 H3. rewrite <- days_before_next by lia.
  assert (K : forall n, m + 1 + Z.of_nat n <= 12 -> days_before y (m + 1) <= days_before y (m + 1 + Z.of_nat n)).
  { induction n as [|n IH]; intros K; [change (Z.of_nat 0) with 0; rewrite ?Z.mul_0_r, ?Z.add_0_r; lia|].
    rewrite Nat2Z.inj_succ. unfold Z.succ. rewrite Z.add_assoc, (days_before_next y (m + 1 + Z.of_nat n)) by lia.
    pose proof (month_len_pos y (m + 1 + Z.of_nat n)). lia. }
  specialize (K (Z.to_nat (m' - m - 1))). rewrite Z2Nat.id in K by lia. replace (m + 1 + (m' - m - 1)) with m' in K by lia. lia.
Qed.

Theorem JulianDay_lt y m d y' m' d' : -4799 <= y -> -4799 <= y' -> valid_date y m d -> valid_date y' m' d' ->
  before_date (y, m, d) (y', m', d') -> JulianDay y m d < JulianDay y' m' d'.
Proof.
  intros Hy Hy' HV HV' HB. rewrite (JulianDay_value y m), (JulianDay_value y' m') by (unfold valid_date in *; lia).
  pose proof (days_before_bound _ _ _ HV). pose proof (days_before_bound _ _ _ HV').
  destruct HB as [H1|[-> [H1|[-> H1]]]].
  - pose proof (JulianDay_year_mono (y + 1) y' ltac:(lia)) as M. rewrite JulianDay_year in M by lia. lia.
  - unfold valid_date in *. pose proof (days_before_mono y' m m' ltac:(lia) H1 ltac:(lia)). lia.
  - lia.
Qed.

Theorem JulianDay_inj y m d y' m' d' : -4799 <= y -> -4799 <= y' -> valid_date y m d -> valid_date y' m' d' ->
  JulianDay y m d = JulianDay y' m' d' -> (y, m, d) = (y', m', d').
Proof.
  intros Hy Hy' HV HV' E.
  destruct (Z.lt_total y y') as [H|[->|H]].
  - pose proof (JulianDay_lt _ _ _ _ _ _ Hy Hy' HV HV' (or_introl H)). lia.
  - destruct (Z.lt_total m m') as [H|[->|H]].
    + pose proof (JulianDay_lt _ _ _ y' m' d' Hy Hy' HV HV' ltac:(right; split; auto)). lia.
    + destruct (Z.lt_total d d') as [H|[->|H]]; auto.
      * pose proof (JulianDay_lt _ _ _ y' m' d' Hy Hy' HV HV' ltac:(right; split; auto)). lia.
      * pose proof (JulianDay_lt _ _ _ y' m' d Hy' Hy HV' HV ltac:(right; split; auto)). lia.
    + pose proof (JulianDay_lt _ _ _ y' m d Hy' Hy HV' HV ltac:(right; split; auto)). lia.
  - pose proof (JulianDay_lt _ _ _ y m d Hy' Hy HV' HV (or_introl H)). lia.
Qed.

Theorem JulianDay_iter n : forall y m d y' m' d', -4799 <= y -> valid_date y m d ->
  Nat.iter n next_day (y, m, d) = (y', m', d') ->
  valid_date y' m' d' /\ y <= y' /\ JulianDay y' m' d' = JulianDay y m d + Z.of_nat n.
Proof.
  induction n as [|n IH]; intros y m d y' m' d' Hy HV E.
  - cbn in E. injection E as <- <- <-. split; auto. lia.
  - change (next_day (Nat.iter n next_day (y, m, d)) = (y', m', d')) in E. destruct (Nat.iter n next_day (y, m, d)) as [[y1 m1] d1] eqn:E1.
    destruct (IH _ _ _ _ _ _ Hy HV E1) as (HV1 & Hy1 & HJ).
    destruct (next_valid _ _ _ _ _ _ HV1 E) as (HV' & Hy').
    assert (Hy1' : -4799 <= y1) by lia. split; auto. split; [lia|]. rewrite (JulianDay_next _ _ _ _ _ _ Hy1' HV1 E). lia.
Qed.

Theorem DayOfYear_spec y m d : -4799 <= y -> valid_date y m d ->
  DayOfYear y m d = days_before y m + d /\ 1 <= DayOfYear y m d <= 365 + (if greg_leap y then 1 else 0).
Proof.
  intros Hy HV. unfold DayOfYear. rewrite (JulianDay_value y m) by (unfold valid_date in *; lia).
  pose proof (days_before_bound _ _ _ HV). lia.
Qed.

Theorem JulianDay_fits y m d : -4799 <= y <= 5000000 -> valid_date y m d -> in_int (JulianDay y m d) /\ in_int (365 * (y + 4800)).
Proof.
  intros Hy HV. rewrite (JulianDay_value y m) by (unfold valid_date in *; lia).
  pose proof (days_before_bound _ _ _ HV). rewrite JulianDay_parts by lia. change (1 <=? 2) with true. cbv iota.
  unfold ypart, leaps, in_int, INT_MIN, INT_MAX. change ((153 * (1 + 9) + 2) / 5) with 306.
  destruct (greg_leap y); zeuclid.
Qed.

(** ** UTC instants *)
Lemma epoch_valid : valid_date 1970 1 1.
Proof. unfold valid_date. cbn. lia. Qed.

Lemma gmtime_spec t : 0 <= t -> exists y m d, utc_date t = (y, m, d) /\ valid_date y m d /\ 1970 <= y /\
  JulianDay y m d = 2440588 + t / 86400 /\ tm_yday (gmtime t) = days_before y m + d - 1 /\
  tm_isdst (gmtime t) = 0 /\ tm_hour (gmtime t) = t mod 86400 / 3600 /\ tm_min (gmtime t) = t mod 86400 mod 3600 / 60
  /\ tm_sec (gmtime t) = t mod 86400 mod 60.
Proof.
  intros Ht. unfold utc_date, gmtime. set (n := Z.to_nat (t / 86400)).
  destruct (Nat.iter n next_day (1970, 1, 1)) as [[y m] d] eqn:E.
  destruct (JulianDay_iter n 1970 1 1 y m d ltac:(lia) epoch_valid E) as (HV & Hy & HJ).
  exists y, m, d. cbn [tm_year tm_mon tm_mday tm_yday tm_isdst tm_hour tm_min tm_sec].
  split; [repeat (f_equal; try lia)|]. split; auto. split; auto. split; [|repeat split; auto].
  rewrite HJ. change (JulianDay 1970 1 1) with 2440588. unfold n. assert (0 <= t / 86400) by (apply Z.div_pos; lia). lia.
Qed.

Theorem JulianDay_t_spec lt t : 0 <= t -> JulianDay_t lt t true = 2440588 + t / 86400.
Proof.
  intros Ht. destruct (gmtime_spec t Ht) as (y & m & d & E & _ & _ & HJ & _). unfold utc_date in E.
  injection E as E1 E2 E3. unfold JulianDay_t, GetDateTime. rewrite E1, E2, E3. auto.
Qed.

Theorem DayOfYear_t_spec lt t : 0 <= t ->
  DayOfYear_t lt t true = DayOfYear (GetYear lt t true) (GetMonth lt t true) (GetDay lt t true).
Proof.
  intros Ht. destruct (gmtime_spec t Ht) as (y & m & d & E & HV & Hy & HJ & HD & _). unfold utc_date in E.
  injection E as E1 E2 E3. unfold DayOfYear_t, GetYear, GetMonth, GetDay, GetDateTime. rewrite E1, E2, E3, HD.
  destruct (DayOfYear_spec y m d ltac:(lia) HV) as [-> _]. lia.
Qed.

(** Days from the epoch, as POSIX computes them. *)
Lemma timegm_days y m d h mi s : 1970 <= y -> valid_date y m d ->
  timegm (y - 1900) (m - 1) d h mi s = (JulianDay y m d - 2440588) * 86400 + h * 3600 + mi * 60 + s.
Proof.
  intros Hy HV. unfold timegm. destruct HV as [Hm Hd].
  replace ((m - 1) / 12) with 0 by (symmetry; apply Z.div_small; lia).
  replace ((m - 1) mod 12) with (m - 1) by (symmetry; apply Z.mod_small; lia).
  replace (y - 1900 + 1900 + 0) with y by lia. replace (m - 1 + 1) with m by lia.
  rewrite (JulianDay_value y m) by lia. rewrite (JulianDay_parts y 1) by lia.
  change (1 <=? 2) with true. cbv iota. change ((153 * (1 + 9) + 2) / 5) with 306. unfold ypart, leaps.
  assert (L : (y - 1970) * 365 + (y - 1969) / 4 - (y - 1901) / 100 + (y - 1601) / 400 =
    1 + (306 + (365 * (y + 4799) + ((y + 4799) / 4 - (y + 4799) / 100 + (y + 4799) / 400) - 32045)) - 2440588).
  { replace (y + 4799) with (y - 1969 + 1692 * 4) at 2 by lia. replace (y + 4799) with (y - 1901 + 67 * 100) at 2 by lia.
    replace (y + 4799) with (y - 1601 + 16 * 400) at 2 by lia. rewrite !Z.div_add by lia. lia. }
  lia.
Qed.

Theorem utc_roundtrip y m d h mi s : 1970 <= y -> valid_date y m d -> 0 <= h < 24 -> 0 <= mi < 60 -> 0 <= s < 60 ->
  let t := timegm (y - 1900) (m - 1) d h mi s in
  0 <= t /\ utc_date t = (y, m, d) /\ tm_hour (gmtime t) = h /\ tm_min (gmtime t) = mi /\ tm_sec (gmtime t) = s /\
  tm_isdst (gmtime t) = 0.
Proof.
  intros Hy HV Hh Hmi Hs t. assert (E : t = (JulianDay y m d - 2440588) * 86400 + h * 3600 + mi * 60 + s) by (apply timegm_days; auto).
  assert (HJ : 2440588 <= JulianDay y m d).
  { rewrite JulianDay_value by (unfold valid_date in *; lia). pose proof (days_before_bound _ _ _ HV).
    pose proof (JulianDay_year_mono 1970 y ltac:(lia)) as M. change (JulianDay 1970 1 1) with 2440588 in M. lia. }
  assert (Ht : 0 <= t) by lia. split; auto.
  assert (D : t / 86400 = JulianDay y m d - 2440588) by zeuclid.
  assert (M : t mod 86400 = h * 3600 + mi * 60 + s) by zeuclid.
  destruct (gmtime_spec t Ht) as (y' & m' & d' & E' & HV' & Hy' & HJ' & _ & H0 & H1 & H2 & H3).
  split; [|split; [|split; [|split]]]; auto.
  - rewrite E'. apply JulianDay_inj; auto; lia.
  - rewrite H1, M. zeuclid.
  - rewrite H2, M. zeuclid.
  - rewrite H3, M. zeuclid.
Qed.

(** ** Reading numbers back *)
Definition not_digit_head (r : bytes) : Prop := match r with [] => True | c :: _ => isdigit c = false end.

Lemma digits_app d : forall acc r, Forall (fun c => isdigit c = true) d -> not_digit_head r ->
  digits acc (d ++ r) = (value_of acc d, r).
Proof.
  induction d as [|c d IH]; intros acc r HF Hr.
  - cbn [app value_of]. destruct r as [|c r]; cbn [digits]; auto. cbn in Hr. rewrite Hr. auto.
  - inversion HF; subst. cbn [app digits value_of]. rewrite H1. apply IH; auto.
Qed.

Lemma not_digit_firstn k r : not_digit_head r -> not_digit_head (firstn k r).
Proof. destruct k, r; cbn; auto. Qed.

Lemma wrap32_id z : in_int z -> wrap32 z = z.
Proof. unfold in_int, INT_MIN, INT_MAX, wrap32. intros H. rewrite Z.mod_small; lia. Qed.

(** A run of digits of value [v], read with or without a field width. *)
Definition fits (w : option nat) (d r : bytes) : Prop :=
  match w with None => not_digit_head r
             | Some k => (length d = k) \/ ((length d < k)%nat /\ not_digit_head r) end.

Lemma scan_digits w d r v : d <> [] -> Forall (fun c => isdigit c = true) d -> value_of 0 d = v ->
  0 <= v <= INT_MAX -> fits w d r -> scan_int w (d ++ r) = Some (v, r).
Proof.
  intros Hd HF Hv Hr Hw. unfold scan_int.
  assert (HS : skip_ws (d ++ r) = d ++ r).
  { destruct d as [|c d']; [congruence|]. cbn [skip_ws app]. inversion HF; subst. rewrite isdigit_not_space by auto. auto. }
  rewrite HS.
  assert (HW : exists a b, (match w with Some k => (firstn k (d ++ r), skipn k (d ++ r)) | None => (d ++ r, []) end) = (d ++ a, b)
            /\ a ++ b = r /\ not_digit_head a).
  { destruct w as [k|]; cbn in Hw.
    - destruct Hw as [<-|[Hk Hn]].
      + exists [], r. rewrite firstn_app, Nat.sub_diag, firstn_all, skipn_app, Nat.sub_diag, skipn_all. cbn. auto.
      + exists (firstn (k - length d) r), (skipn (k - length d) r).
        rewrite firstn_app, firstn_all2, skipn_app, skipn_all2 by lia. cbn [app].
        split; auto. split; [apply firstn_skipn|apply not_digit_firstn; auto].
    - exists r, []. rewrite app_nil_r. auto. }
  destruct HW as (a & b & EW & Er & Ha). unfold bytes in *. rewrite EW.
  clear EW. subst r.
  destruct d as [|c d']; [congruence|]. cbn [app].
  assert (Hc : isdigit c = true) by (inversion HF; auto). pose proof (isdigit_code c Hc) as Hcc.
  destruct (ascii_dec c "-") as [->|_]; [vm_compute in Hc; discriminate Hc|]. destruct (ascii_dec c "+") as [->|_]; [vm_compute in Hc; discriminate Hc|].
  rewrite Hc. change (c :: d' ++ a) with ((c :: d') ++ a). rewrite digits_app by auto. rewrite Hv.
  unfold clamp_long. rewrite wrap32_id by (unfold in_int, INT_MIN, INT_MAX, LONG_MIN, LONG_MAX in *; lia).
  do 2 f_equal. unfold INT_MAX, LONG_MIN, LONG_MAX in *; lia.
Qed.

(** Text of a number 0..99 in two digits and of a year 1000..9999 in four. *)
Definition textof (d : bytes) (n : nat) (v : Z) : Prop :=
  length d = n /\ Forall (fun c => isdigit c = true) d /\ value_of 0 d = v.

Lemma dec1 z : 0 <= z < 10 -> dec z = [digit z].
Proof.
  intros H. unfold dec. cbn [dec_loop]. replace (z <? 10) with true by lia. auto.
Qed.

Lemma dec2 z : 10 <= z -> dec z = dec (z / 10) ++ [digit (z mod 10)].
Proof.
  intros H.
  assert (G : forall f z acc, dec_loop f z acc = dec_loop f z [] ++ acc).
  { clear. induction f as [|f IH]; intros z acc; cbn [dec_loop]; auto.
    destruct (z <? 10); auto. rewrite (IH (z / 10) (_ :: acc)), (IH (z / 10) [_]). rewrite <- app_assoc. auto. }
  assert (F : forall f g z, 0 <= z -> (Z.to_nat (Z.log2 z) < f)%nat -> (Z.to_nat (Z.log2 z) < g)%nat -> dec_loop f z [] = dec_loop g z []).
  { clear z H. induction f as [|f IH]; intros g z Hz Hf Hg; [lia|]. destruct g as [|g]; [lia|]. cbn [dec_loop].
    destruct (z <? 10) eqn:E; auto. rewrite (G f), (G g). f_equal.
    assert (L : Z.log2 (z / 10) < Z.log2 z).
    { assert (z / 10 <= z / 2) by (apply Z.div_le_compat_l; lia).
      assert (Z.log2 (z / 10) <= Z.log2 (z / 2)) by (apply Z.log2_le_mono; auto).
      rewrite <- Z.div2_div in *. rewrite Z.div2_spec, Z.log2_shiftr in * by lia.
      assert (0 < Z.log2 z) by (apply Z.log2_pos; lia). lia. }
    pose proof (Z.log2_nonneg (z / 10)). apply IH; [apply Z.div_pos; lia|lia|lia]. }
  unfold dec at 1. cbn [dec_loop]. replace (z <? 10) with false by lia. rewrite G. f_equal.
  assert (L : Z.log2 (z / 10) < Z.log2 z).
    { assert (z / 10 <= z / 2) by (apply Z.div_le_compat_l; lia).
      assert (Z.log2 (z / 10) <= Z.log2 (z / 2)) by (apply Z.log2_le_mono; auto).
      rewrite <- Z.div2_div in *. rewrite Z.div2_spec, Z.log2_shiftr in * by lia.
      assert (0 < Z.log2 z) by (apply Z.log2_pos; lia). lia. }
  pose proof (Z.log2_nonneg (z / 10)). apply F; [apply Z.div_pos; lia|lia|lia].
Qed.

Lemma textof_dec_snoc d n v k : textof d n v -> 0 <= k < 10 -> textof (d ++ [digit k]) (S n) (v * 10 + k).
Proof.
  intros (H1 & H2 & H3) Hk. split; [rewrite app_length; cbn; lia|]. split.
  - apply Forall_app. split; auto. constructor; [now apply digit_isdigit|constructor].
  - rewrite value_of_app, H3. cbn. rewrite digit_code by auto. lia.
Qed.

Lemma textof_dec n : forall z, 0 <= z < 10 ^ Z.of_nat (S n) -> (n = O \/ 10 ^ Z.of_nat n <= z) -> textof (dec z) (S n) z.
Proof.
  induction n as [|n IH]; intros z Hz Hn.
  - change (10 ^ Z.of_nat 1) with 10 in Hz. rewrite dec1 by auto. split; auto. split.
    + constructor; [now apply digit_isdigit|constructor].
    + cbn. rewrite digit_code by auto. lia.
  - destruct Hn as [?|Hn]; [lia|].
    rewrite Nat2Z.inj_succ, Z.pow_succ_r in Hz by lia.
    rewrite Nat2Z.inj_succ, Z.pow_succ_r in Hn by lia.
    assert (0 < 10 ^ Z.of_nat n) by (apply Z.pow_pos_nonneg; lia).
    rewrite dec2 by lia. replace z with (z / 10 * 10 + z mod 10) at 3 by (rewrite Z.mul_comm, <- Z.div_mod; lia).
    apply textof_dec_snoc; [|apply Z.mod_pos_bound; lia]. apply IH.
    + split; [apply Z.div_pos; lia|apply Z.div_lt_upper_bound; lia].
    + right. apply Z.div_le_lower_bound; lia.
Qed.

Lemma textof_year y : 1000 <= y <= 9999 -> textof (itoa y) 4 y.
Proof.
  intros H. unfold itoa. replace (y <? 0) with false by lia. apply (textof_dec 3); cbn; lia.
Qed.

Lemma textof_pad2 z : 0 <= z <= 99 -> textof (pad2 z) 2 z.
Proof.
  intros H. unfold pad2, itoa. replace (z <? 0) with false by lia. destruct (z <? 10) eqn:E.
  - rewrite dec1 by lia. change "0"%char with (digit 0). split; auto. split.
    + constructor; [now apply digit_isdigit|]. constructor; [apply digit_isdigit; lia|constructor].
    + cbn [value_of]. rewrite !digit_code by lia. lia.
  - apply (textof_dec 1); cbn; lia.
Qed.

Lemma scan_text w d n v r : textof d (S n) v -> v <= INT_MAX -> 0 <= v -> fits w d r -> scan_int w (d ++ r) = Some (v, r).
Proof. intros (H1 & H2 & H3) Hv Hv0 Hw. apply scan_digits; auto. destruct d; [discriminate H1|congruence]. Qed.

Lemma sscanf_int w d n v r ds : textof d (S n) v -> v <= INT_MAX -> 0 <= v -> fits w d r ->
  sscanf (SInt w :: ds) (d ++ r) = v :: sscanf ds r.
Proof. intros. cbn [sscanf]. rewrite (scan_text w d n v r) by auto. auto. Qed.

Lemma sscanf_lit c ds r : sscanf (SLit c :: ds) (c :: r) = sscanf ds r.
Proof. cbn [sscanf]. destruct (ascii_dec c c); [auto|congruence]. Qed.

Lemma sscanf_ws ds d n v r : textof d (S n) v -> sscanf (SWs :: ds) (" "%char :: d ++ r) = sscanf ds (d ++ r).
Proof.
  intros (H1 & H2 & _). cbn [sscanf skip_ws]. change (isspace " ") with true. cbv iota.
  destruct d as [|c d']; [discriminate|]. cbn [skip_ws app]. inversion H2; subst. rewrite isdigit_not_space by auto. auto.
Qed.

(** ** Text of UTC instants *)
Lemma year_small t : 0 <= t < Y10K -> forall y m d, utc_date t = (y, m, d) -> 1970 <= y <= 9999 /\ valid_date y m d /\
  t / 86400 = JulianDay y m d - 2440588.
Proof.
  intros Ht y m d E. destruct (gmtime_spec t ltac:(lia)) as (y' & m' & d' & E' & HV & Hy & HJ & _).
  rewrite E in E'. injection E' as <- <- <-. split; [|split; auto; lia]. split; auto.
  destruct (Z.le_gt_cases y 9999) as [|C]; auto. exfalso.
  pose proof (JulianDay_year_mono 10000 y ltac:(lia)) as M. change (JulianDay 10000 1 1) with 5373485 in M.
  rewrite JulianDay_value in HJ by (unfold valid_date in *; lia). pose proof (days_before_bound _ _ _ HV).
  assert (t / 86400 < 2932897) by (apply Z.div_lt_upper_bound; unfold Y10K in *; lia). lia.
Qed.

Lemma gm_fields t : 0 <= t ->
  0 <= tm_hour (gmtime t) <= 23 /\ 0 <= tm_min (gmtime t) <= 59 /\ 0 <= tm_sec (gmtime t) <= 59 /\ tm_isdst (gmtime t) = 0 /\
  t mod 86400 = tm_hour (gmtime t) * 3600 + tm_min (gmtime t) * 60 + tm_sec (gmtime t).
Proof.
  intros Ht. destruct (gmtime_spec t Ht) as (y & m & d & _ & _ & _ & _ & _ & H0 & -> & -> & ->).
  rewrite H0. zeuclid.
Qed.

Theorem timegm_gmtime t : 0 <= t ->
  timegm (tm_year (gmtime t)) (tm_mon (gmtime t)) (tm_mday (gmtime t)) (tm_hour (gmtime t)) (tm_min (gmtime t)) (tm_sec (gmtime t)) = t.
Proof.
  intros Ht. destruct (gmtime_spec t Ht) as (y & m & d & E & HV & Hy & HJ & _). unfold utc_date in E. injection E as E1 E2 E3.
  destruct (gm_fields t Ht) as (_ & _ & _ & _ & HM). 
  replace (tm_year (gmtime t)) with (y - 1900) by lia. replace (tm_mon (gmtime t)) with (m - 1) by lia. rewrite E3.
  rewrite timegm_days by auto. pose proof (Z.div_mod t 86400 ltac:(lia)). lia.
Qed.

(** The pieces of a printed date. *)
Lemma printed t : 0 <= t < Y10K -> exists y m d : Z,
  utc_date t = (y, m, d) /\ valid_date y m d /\ 1970 <= y <= 9999 /\
  textof (itoa y) 4 y /\ textof (pad2 m) 2 m /\ textof (pad2 d) 2 d /\
  textof (pad2 (tm_hour (gmtime t))) 2 (tm_hour (gmtime t)) /\ textof (pad2 (tm_min (gmtime t))) 2 (tm_min (gmtime t)) /\
  textof (pad2 (tm_sec (gmtime t))) 2 (tm_sec (gmtime t)) /\
  (forall sep, strf_date sep (gmtime t) = itoa y ++ sep :: pad2 m ++ sep :: pad2 d).
Proof.
  intros Ht. destruct (utc_date t) as [[y m] d] eqn:E. destruct (year_small t Ht _ _ _ E) as (Hy & HV & _).
  exists y, m, d. pose proof HV as [Hm Hd]. pose proof (month_len_pos y m).
  destruct (gm_fields t ltac:(lia)) as (A & B & C & _).
  split; auto. split; auto. split; auto. split; [apply textof_year; lia|]. split; [apply textof_pad2; lia|]. split; [apply textof_pad2; lia|].
  split; [apply textof_pad2; lia|]. split; [apply textof_pad2; lia|]. split; [apply textof_pad2; lia|].
  intros sep. unfold strf_date. unfold utc_date in E. injection E as -> -> ->. auto.
Qed.

Lemma textof_app d n v r : textof d n v -> length (d ++ r) = (n + length r)%nat.
Proof. intros (H & _). rewrite app_length, H. auto. Qed.

Lemma timegm_start t y m d : 0 <= t < Y10K -> utc_date t = (y, m, d) -> timegm (y - 1900) (m - 1) d 0 0 0 = 86400 * (t / 86400).
Proof.
  intros Ht E. destruct (year_small t Ht _ _ _ E) as (Hy & HV & D). rewrite timegm_days by (auto; lia). lia.
Qed.

Lemma timegm_full t y m d : 0 <= t -> utc_date t = (y, m, d) ->
  timegm (y - 1900) (m - 1) d (tm_hour (gmtime t)) (tm_min (gmtime t)) (tm_sec (gmtime t)) = t.
Proof.
  intros Ht E. unfold utc_date in E. injection E as E1 E2 E3. rewrite <- (timegm_gmtime t Ht) at 4. f_equal; lia.
Qed.

Lemma ConvertToString_text lt t : 0 <= t < Y10K ->
  ConvertToString lt t true = Ok (strf_date "-" (gmtime t)) /\ length (strf_date "-" (gmtime t)) = 10%nat.
Proof.
  intros Ht. destruct (printed t Ht) as (y & m & d & E & HV & Hy & T1 & T2 & T3 & T4 & T5 & T6 & HS).
  assert (HL : length (strf_date "-" (gmtime t)) = 10%nat).
  { rewrite HS, (textof_app _ _ _ _ T1). cbn [length]. rewrite (textof_app _ _ _ _ T2). cbn [length].
    destruct T3 as (-> & _). auto. }
  split; auto. unfold ConvertToString, GetDateTime. destruct (gm_fields t ltac:(lia)) as (_ & _ & _ & -> & _).
  change (0 >? 0) with false. cbv iota. rewrite HL. auto.
Qed.

Theorem date_text_roundtrip lt t fmt : 0 <= t < Y10K -> fmt = str "%4d-%2d-%2d" \/ fmt = str "%d-%d-%d" ->
  exists s, ConvertToString lt t true = Ok s /\ ConvertToTime s fmt false = Some (Ok (86400 * (t / 86400))).
Proof.
  intros Ht HF. exists (strf_date "-" (gmtime t)). destruct (ConvertToString_text lt t Ht) as (H1 & H2). split; auto.
  destruct (printed t Ht) as (y & m & d & E & HV & Hy & T1 & T2 & T3 & T4 & T5 & T6 & HS).
  pose proof (timegm_start t y m d Ht E) as HG. rewrite HS in *. destruct HV as [Hm Hd].
  unfold ConvertToTime. destruct (itoa y ++ _) as [|c0 s0] eqn:ES; [discriminate H2|]. rewrite <- ES.
  rewrite <- (app_nil_r (pad2 d)).
  assert (HP : exists w1 w2 w3, parse_fmt None fmt = Some [SInt w1; SLit "-"; SInt w2; SLit "-"; SInt w3] /\
    (w1 = None \/ w1 = Some 4%nat) /\ (w2 = None \/ w2 = Some 2%nat) /\ (w3 = None \/ w3 = Some 2%nat)).
  { destruct HF as [-> | ->]; do 3 eexists; split; try reflexivity; auto. }
  destruct HP as (w1 & w2 & w3 & -> & W1 & W2 & W3).
  rewrite (sscanf_int _ _ 3 y _ _ T1); [|unfold INT_MAX; lia|lia|destruct W1 as [-> | ->]; cbn; [auto|left; apply T1]].
  rewrite sscanf_lit.
  rewrite (sscanf_int _ _ 1 m _ _ T2); [|unfold INT_MAX; lia|lia|destruct W2 as [-> | ->]; cbn; [auto|left; apply T2]].
  rewrite sscanf_lit. pose proof (month_len_pos y m).
  rewrite (sscanf_int _ _ 1 d _ _ T3); [|unfold INT_MAX; lia|lia|destruct W3 as [-> | ->]; cbn; [auto|left; apply T3]].
  cbn [sscanf]. rewrite HG. auto.
Qed.

Ltac step T k := rewrite (sscanf_int _ _ k _ _ _ T); [|unfold INT_MAX; lia|lia|cbn; first [left; apply T | auto]].

Theorem time_text_roundtrip lt t : 0 <= t < Y10K ->
  exists s, ConvertToString2 lt t true = Ok s /\
   ConvertToTime s (str "%4d-%2d-%2d %2d:%2d:%2d") true = Some (Ok t) /\
   ConvertToTime s (str "%d-%d-%d %d:%d:%d") true = Some (Ok t).
Proof.
  intros Ht. destruct (printed t Ht) as (y & m & d & E & HV & Hy & T1 & T2 & T3 & T4 & T5 & T6 & HS).
  pose proof (timegm_full t y m d ltac:(lia) E) as HG. destruct HV as [Hm Hd]. pose proof (month_len_pos y m).
  destruct (gm_fields t ltac:(lia)) as (F1 & F2 & F3 & F4 & _).
  eexists. split.
  - unfold ConvertToString2, GetDateTime, dst_fix. rewrite F4. change (0 >? 0) with false. cbv iota. cbn [obind]. reflexivity.
  - rewrite HS. unfold strf_time. rewrite <- (app_nil_r (pad2 (tm_sec _))).
    repeat (rewrite <- ?app_assoc; cbn [app]).
    assert (NE : forall r, itoa y ++ r <> []) by (intros r; destruct T1 as (L & _); destruct (itoa y); [discriminate L|discriminate]).
    split; unfold ConvertToTime; (destruct (itoa y ++ _) as [|c0 s0] eqn:ES; [exfalso; eapply NE; eauto|]; rewrite <- ES; clear ES c0 s0).
    + change (parse_fmt None (str "%4d-%2d-%2d %2d:%2d:%2d")) with
       (Some [SInt (Some 4%nat); SLit "-"; SInt (Some 2%nat); SLit "-"; SInt (Some 2%nat); SWs; SInt (Some 2%nat); SLit ":"; SInt (Some 2%nat); SLit ":"; SInt (Some 2%nat)]).
      cbv iota. step T1 3%nat. rewrite sscanf_lit. step T2 1%nat. rewrite sscanf_lit. step T3 1%nat. rewrite (sscanf_ws _ _ 1 _ _ T4).
      step T4 1%nat. rewrite sscanf_lit. step T5 1%nat. rewrite sscanf_lit. step T6 1%nat. cbn [sscanf nth_or nth]. rewrite HG. auto.
    + change (parse_fmt None (str "%d-%d-%d %d:%d:%d")) with
       (Some [SInt None; SLit "-"; SInt None; SLit "-"; SInt None; SWs; SInt None; SLit ":"; SInt None; SLit ":"; SInt None]).
      cbv iota. step T1 3%nat. rewrite sscanf_lit. step T2 1%nat. rewrite sscanf_lit. step T3 1%nat. rewrite (sscanf_ws _ _ 1 _ _ T4).
      step T4 1%nat. rewrite sscanf_lit. step T5 1%nat. rewrite sscanf_lit. step T6 1%nat. cbn [sscanf nth_or nth]. rewrite HG. auto.
Qed.

Theorem compact_text_roundtrip lt t : 0 <= t < Y10K ->
  exists s, ConvertToString3 lt t true = Ok s /\
   ConvertToTime s (str "%4d_%2d_%2d_%2d%2d%2d") true = Some (Ok t).
Proof.
  intros Ht. destruct (printed t Ht) as (y & m & d & E & HV & Hy & T1 & T2 & T3 & T4 & T5 & T6 & HS).
  pose proof (timegm_full t y m d ltac:(lia) E) as HG. destruct HV as [Hm Hd]. pose proof (month_len_pos y m).
  destruct (gm_fields t ltac:(lia)) as (F1 & F2 & F3 & F4 & _).
  eexists. split.
  - unfold ConvertToString3, GetDateTime, dst_fix. rewrite F4. change (0 >? 0) with false. cbv iota. cbn [obind]. reflexivity.
  - rewrite HS. rewrite <- (app_nil_r (pad2 (tm_sec _))).
    repeat (rewrite <- ?app_assoc; cbn [app]).
    assert (NE : forall r, itoa y ++ r <> []) by (intros r; destruct T1 as (L & _); destruct (itoa y); [discriminate L|discriminate]).
    unfold ConvertToTime; (destruct (itoa y ++ _) as [|c0 s0] eqn:ES; [exfalso; eapply NE; eauto|]; rewrite <- ES; clear ES c0 s0).
    change (parse_fmt None (str "%4d_%2d_%2d_%2d%2d%2d")) with
       (Some [SInt (Some 4%nat); SLit "_"; SInt (Some 2%nat); SLit "_"; SInt (Some 2%nat); SLit "_"; SInt (Some 2%nat); SInt (Some 2%nat); SInt (Some 2%nat)]).
    cbv iota. step T1 3%nat. rewrite sscanf_lit. step T2 1%nat. rewrite sscanf_lit. step T3 1%nat. rewrite sscanf_lit.
    step T4 1%nat. step T5 1%nat. step T6 1%nat. cbn [sscanf nth_or nth]. rewrite HG. auto.
Qed.

Theorem GetDateInfo_ok lt t : 0 <= t < Y10K ->
  GetDateInfoFromTimet lt t true = [GetYear lt t true; GetMonth lt t true; GetDay lt t true].
Proof.
  intros Ht. destruct (printed t Ht) as (y & m & d & E & HV & Hy & T1 & T2 & T3 & T4 & T5 & T6 & HS).
  destruct HV as [Hm Hd]. pose proof (month_len_pos y m).
  destruct (gm_fields t ltac:(lia)) as (F1 & F2 & F3 & F4 & _).
  unfold GetDateInfoFromTimet, GetYear, GetMonth, GetDay, GetDateTime. rewrite F4. change (0 >? 0) with false. cbv iota.
  rewrite HS. unfold strf_time. rewrite <- (app_nil_r (pad2 (tm_sec _))). repeat (rewrite <- ?app_assoc; cbn [app]). unfold fmt_date_info.
  step T1 3%nat. rewrite sscanf_lit. step T2 1%nat. rewrite sscanf_lit. step T3 1%nat. cbn [firstn].
  unfold utc_date in E. injection E as -> -> ->. auto.
Qed.

Theorem ymd_roundtrip lt y m d : 1970 <= y <= 9999 -> valid_date y m d ->
  GetDateInfoFromTimet lt (ConvertYMDToTime y m d) true = [y; m; d].
Proof.
  intros Hy HV. unfold ConvertYMDToTime.
  destruct (utc_roundtrip y m d 0 0 0 ltac:(lia) HV ltac:(lia) ltac:(lia) ltac:(lia)) as (H0 & HU & _).
  set (t := timegm (y - 1900) (m - 1) d 0 0 0) in *.
  assert (Ht : 0 <= t < Y10K).
  { split; auto. unfold t. rewrite timegm_days by (auto; lia).
    pose proof (JulianDay_year_mono y 9999 ltac:(lia)) as M. rewrite JulianDay_value by (unfold valid_date in *; lia).
    pose proof (days_before_bound _ _ _ HV). change (JulianDay 9999 1 1) with 5373120 in M.
    destruct (Z.eq_dec y 9999) as [->|]. { change (JulianDay 9999 1 1) with 5373120 in *. change (greg_leap 9999) with false in *. unfold Y10K. lia. }
    unfold Y10K. destruct (greg_leap y); lia. }
  clearbody t. rewrite GetDateInfo_ok by auto. unfold utc_date in HU. unfold GetYear, GetMonth, GetDay, GetDateTime. injection HU as -> -> ->. auto.
Qed.

(** From the year 10000 on only a wrong year is assigned. *)
Theorem ymd_late lt y m d : 10000 <= y <= 99999 -> valid_date y m d ->
  GetDateInfoFromTimet lt (ConvertYMDToTime y m d) true = [y / 10] /\ ConvertToString lt (ConvertYMDToTime y m d) true = UB.
Proof.
  intros Hy HV. unfold ConvertYMDToTime.
  destruct (utc_roundtrip y m d 0 0 0 ltac:(lia) HV ltac:(lia) ltac:(lia) ltac:(lia)) as (H0 & HU & _ & _ & _ & HD).
  set (t := timegm (y - 1900) (m - 1) d 0 0 0) in *. clearbody t. unfold utc_date in HU. injection HU as E1 E2 E3.
  assert (TY : textof (dec (y / 10)) 4 (y / 10)).
  { apply (textof_dec 3). - change (10 ^ Z.of_nat 4) with 10000. split; [apply Z.div_pos; lia|apply Z.div_lt_upper_bound; lia].
    - right. change (10 ^ Z.of_nat 3) with 1000. apply Z.div_le_lower_bound; lia. }
  assert (EY : itoa y = dec (y / 10) ++ [digit (y mod 10)]).
  { unfold itoa. replace (y <? 0) with false by lia. apply dec2. lia. }
  assert (HI : isdigit (digit (y mod 10)) = true) by (apply digit_isdigit, Z.mod_pos_bound; lia).
  destruct HV as [Hm Hd]. pose proof (month_len_pos y m).
  split.
  - unfold GetDateInfoFromTimet, GetDateTime. rewrite HD. change (0 >? 0) with false. cbv iota.
    unfold strf_date. rewrite E1, EY. repeat (rewrite <- ?app_assoc; cbn [app]). unfold fmt_date_info.
    rewrite (sscanf_int _ _ 3 _ _ _ TY); [|unfold INT_MAX; assert (y / 10 < 10000) by (apply Z.div_lt_upper_bound; lia); lia|apply Z.div_pos; lia|left; apply TY].
    cbn [sscanf]. destruct (ascii_dec (digit (y mod 10)) "-") as [C|_]; auto.
    exfalso. rewrite C in HI. vm_compute in HI. discriminate HI.
  - unfold ConvertToString, GetDateTime. rewrite HD. change (0 >? 0) with false. cbv iota.
    unfold strf_date. rewrite E1, E2, E3, EY. rewrite !app_length. destruct TY as (-> & _).
    destruct (textof_pad2 m ltac:(lia)) as (-> & _). destruct (textof_pad2 d ltac:(lia)) as (-> & _). cbn. auto.
Qed.

(** ** Daylight saving correction *)
Theorem dst_fix_ok d : fields_ok d -> tm_isdst d > 0 -> tm_hour d <> 0 \/ 1 < tm_mday d ->
  exists d', dst_fix d = Ok d' /\ fields_ok d' /\ instant d' = instant d - 3600.
Proof.
  intros (HV & Hh & Hmi & Hs) HD HC. unfold dst_fix. replace (tm_isdst d >? 0) with true by lia.
  destruct (Z.eqb_spec (tm_hour d) 0) as [E|E]; cbn [negb].
  - replace (tm_mday d - 1 =? 0) with false by lia. eexists. split; [reflexivity|].
    unfold fields_ok, set_date, instant, valid_date in *. cbn [tm_year tm_mon tm_mday tm_hour tm_min tm_sec]. split; [lia|].
    unfold timegm. lia.
  - eexists. split; [reflexivity|].
    unfold fields_ok, set_hour, instant, valid_date in *. cbn [tm_year tm_mon tm_mday tm_hour tm_min tm_sec]. split; [lia|].
    unfold timegm. lia.
Qed.

Theorem dst_fix_january d : tm_isdst d > 0 -> tm_hour d = 0 -> tm_mday d = 1 -> tm_mon d = 0 -> dst_fix d = UB.
Proof.
  intros HD E1 E2 E3. unfold dst_fix. rewrite E1, E2, E3. replace (tm_isdst d >? 0) with true by lia. reflexivity.
Qed.

Theorem dst_fix_february d : tm_isdst d > 0 -> tm_hour d = 0 -> tm_mday d = 1 -> tm_mon d = 1 ->
  exists d', dst_fix d = Ok d' /\ tm_mon d' + 1 = 13.
Proof.
  intros HD E1 E2 E3. unfold dst_fix. rewrite E1, E2, E3. replace (tm_isdst d >? 0) with true by lia. eexists. split; [reflexivity|]. reflexivity.
Qed.

(** ** DateTime *)
Section DT.
Variable localtime : Z -> tm.
Variable mktime : tm -> Z * tm.

Theorem Forward_value (x : DateTime) ims :
  let t := (dt_filetime x + dt_ms x) / 1000 in mktime (localtime t) = (t, localtime t) ->
  0 <= dt_filetime x + dt_ms x < 2 ^ 64 ->
  dt_filetime (Forward localtime mktime x ims) = dt_filetime x + dt_ms x.
Proof.
  intros t HM HR. change (2 ^ 64) with 18446744073709551616 in HR.
  unfold Forward, FromFileTime, ConvertTMToDateTime, wrapu64. rewrite (Z.mod_small (dt_filetime x + dt_ms x)) by lia.
  fold t. rewrite HM. cbn [dt_filetime]. unfold t.
  rewrite Z.mod_small; pose proof (Z.div_mod (dt_filetime x + dt_ms x) 1000 ltac:(lia)); lia.
Qed.

Theorem Backward_value (x : DateTime) ims :
  let t := (dt_filetime x - dt_ms x) / 1000 in mktime (localtime t) = (t, localtime t) ->
  0 <= dt_filetime x - dt_ms x < 2 ^ 64 ->
  dt_filetime (Backward localtime mktime x ims) = dt_filetime x - dt_ms x.
Proof.
  intros t HM HR. change (2 ^ 64) with 18446744073709551616 in HR.
  unfold Backward, FromFileTime, ConvertTMToDateTime, wrapu64. rewrite (Z.mod_small (dt_filetime x - dt_ms x)) by lia.
  fold t. rewrite HM. cbn [dt_filetime]. unfold t.
  rewrite Z.mod_small; pose proof (Z.div_mod (dt_filetime x - dt_ms x) 1000 ltac:(lia)); lia.
Qed.
End DT.

(** *** A fixed-offset zone *)
Lemma gmtime_isdst t : 0 <= t -> tm_isdst (gmtime t) = 0.
Proof. intros H. apply gm_fields; auto. Qed.

Lemma zone_roundtrip off t : 0 <= t + off -> zone_mktime off (zone_localtime off t) = (t, zone_localtime off t).
Proof.
  intros H. unfold zone_mktime, zone_localtime. rewrite timegm_gmtime by auto.
  replace (t + off - off) with t by lia. auto.
Qed.

Lemma zone_mktime_gm off t : 0 <= t -> zone_mktime off (gmtime t) = (t - off, gmtime t).
Proof.
  intros H. unfold zone_mktime, zone_localtime. rewrite timegm_gmtime by auto.
  replace (t - off + off) with t by lia. auto.
Qed.

Lemma ft_small t ms : 0 <= t <= MAXSEC -> 0 <= ms < 1000 -> wrapu64 (t * 1000 + ms) = t * 1000 + ms /\ (t * 1000 + ms) / 1000 = t /\ (t * 1000 + ms) mod 1000 = ms.
Proof.
  intros H1 H2. split; [unfold wrapu64; apply Z.mod_small; unfold MAXSEC in *; lia|]. zeuclid.
Qed.

Lemma ms_wrap ms : 0 <= ms < 1000 -> wrap32 ms = ms.
Proof. intros H. apply wrap32_id. unfold in_int, INT_MIN, INT_MAX. lia. Qed.

Theorem zone_local_utc off now ms : 0 <= ms < 1000 -> 0 <= now <= MAXSEC -> 0 <= now + off -> 0 <= now - off <= MAXSEC ->
  let L := LocalTimeNow (zone_localtime off) (zone_mktime off) now ms in
  let U := UTCTimeNow (zone_mktime off) now ms in
  ToUTCTime (zone_mktime off) L = U /\ ToLocalTime (zone_localtime off) (zone_mktime off) now U = L.
Proof.
  intros Hms Hn H1 H2 L U.
  assert (EL : L = mkDT (zone_localtime off now) ms (now * 1000 + ms)).
  { unfold L, LocalTimeNow, ConvertTMToDateTime. rewrite zone_roundtrip by auto. rewrite ms_wrap by auto.
    destruct (ft_small now ms Hn Hms) as (-> & _). auto. }
  assert (EU : U = mkDT (gmtime now) ms ((now - off) * 1000 + ms)).
  { unfold U, UTCTimeNow, ConvertTMToDateTime. rewrite zone_mktime_gm by lia. rewrite ms_wrap by auto.
    destruct (ft_small (now - off) ms H2 Hms) as (-> & _). auto. }
  split.
  - unfold ToUTCTime. rewrite EL at 1 2. cbn [dt_filetime dt_ms]. destruct (ft_small now ms Hn Hms) as (_ & -> & _). auto.
  - unfold ToLocalTime. rewrite zone_mktime_gm by lia. cbn [fst]. rewrite EU. cbn [dt_filetime dt_ms].
    destruct (ft_small (now - off) ms H2 Hms) as (_ & -> & _).
    replace (now - off + now - (now - off)) with now by lia. auto.
Qed.

Theorem zone_FromDateTime off y m d h mi s ms : 1970 <= y -> valid_date y m d -> 0 <= h < 24 -> 0 <= mi < 60 -> 0 <= s < 60 ->
  0 <= ms < 1000 -> 0 <= timegm (y - 1900) (m - 1) d h mi s - off <= MAXSEC ->
  let x := FromDateTime (zone_mktime off) y m d h mi s ms in
  (tm_year (dt_tm x) + 1900, tm_mon (dt_tm x) + 1, tm_mday (dt_tm x)) = (y, m, d) /\
  (tm_hour (dt_tm x), tm_min (dt_tm x), tm_sec (dt_tm x), dt_ms x) = (h, mi, s, ms) /\
  tm_yday (dt_tm x) = DayOfYear y m d - 1 /\
  FromFileTime (zone_localtime off) (zone_mktime off) (dt_filetime x) = x.
Proof.
  intros Hy HV Hh Hmi Hs Hms HR x.
  destruct (utc_roundtrip y m d h mi s Hy HV Hh Hmi Hs) as (H0 & HU & E1 & E2 & E3 & E4).
  set (T := timegm (y - 1900) (m - 1) d h mi s) in *.
  assert (EX : x = mkDT (gmtime T) ms ((T - off) * 1000 + ms)).
  { unfold x, FromDateTime, ConvertTMToDateTime, zone_mktime. cbn [tm_year tm_mon tm_mday tm_hour tm_min tm_sec]. fold T.
    rewrite ms_wrap by auto. destruct (ft_small (T - off) ms HR Hms) as (-> & _). unfold zone_localtime.
    replace (T - off + off) with T by lia. auto. }
  rewrite EX. cbn [dt_tm dt_ms dt_filetime]. split; [exact HU|]. split; [congruence|]. split.
  - destruct (gmtime_spec T H0) as (y' & m' & d' & E' & HV' & _ & _ & -> & _). rewrite HU in E'. injection E' as <- <- <-.
    destruct (DayOfYear_spec y m d ltac:(lia) HV) as [-> _]. lia.
  - unfold FromFileTime, ConvertTMToDateTime. destruct (ft_small (T - off) ms HR Hms) as (E & -> & ->).
    rewrite zone_roundtrip by lia. rewrite ms_wrap by auto. rewrite E. unfold zone_localtime. replace (T - off + off) with T by lia. auto.
Qed.
