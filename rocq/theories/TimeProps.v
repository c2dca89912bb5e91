(** Property theorems about src/utils_time (C11-C13, C60-C64). *)
From Coq Require Import ZArith Ascii String List Bool Lia.
From Verif Require Import Base StrModel ScanModel TimeModel TimeSpec TimeProofs.
Import ListNotations.
Open Scope Z_scope.

(** C11. Leap years and day of year. *)
Theorem C11_leap_year : forall y : Z,
  IsLeapYear y = true <-> (4 | y) /\ (~ (100 | y) \/ (400 | y)).
Proof. intros y. rewrite leap_rem. apply leap_div. Qed.
Print Assumptions C11_leap_year.

Theorem C11_day_of_year : forall y m d : Z, -4799 <= y -> valid_date y m d ->
  DayOfYear y m d = days_before y m + d /\
  1 <= DayOfYear y m d <= (if IsLeapYear y then 366 else 365).
Proof.
  intros y m d Hy HV. rewrite leap_rem. destruct (DayOfYear_spec y m d Hy HV) as [H1 H2].
  split; auto. destruct (greg_leap y); lia.
Qed.
Print Assumptions C11_day_of_year.

Example C11_ex : valid_date 2024 2 29 /\ DayOfYear 2024 2 29 = 60 /\ IsLeapYear 2100 = false /\ DayOfYear 2000 12 31 = 366.
Proof. split; [unfold valid_date; cbn; lia|]. repeat split. Qed.

(** C12. Julian day numbers count days. *)
Theorem C12_next_day : forall y m d y' m' d' : Z, -4799 <= y -> valid_date y m d ->
  next_day (y, m, d) = (y', m', d') -> JulianDay y' m' d' = JulianDay y m d + 1.
Proof. exact JulianDay_next. Qed.
Print Assumptions C12_next_day.

Theorem C12_counts : forall (n : nat) (y m d y' m' d' : Z), -4799 <= y -> valid_date y m d ->
  Nat.iter n next_day (y, m, d) = (y', m', d') ->
  valid_date y' m' d' /\ JulianDay y' m' d' - JulianDay y m d = Z.of_nat n.
Proof.
  intros n y m d y' m' d' Hy HV E. destruct (JulianDay_iter n y m d y' m' d' Hy HV E) as (H1 & _ & H2). split; auto. lia.
Qed.
Print Assumptions C12_counts.

Theorem C12_monotone : forall y m d y' m' d' : Z, -4799 <= y -> -4799 <= y' ->
  valid_date y m d -> valid_date y' m' d' ->
  before_date (y, m, d) (y', m', d') -> JulianDay y m d < JulianDay y' m' d'.
Proof. exact JulianDay_lt. Qed.
Print Assumptions C12_monotone.

Theorem C12_injective : forall y m d y' m' d' : Z, -4799 <= y -> -4799 <= y' ->
  valid_date y m d -> valid_date y' m' d' ->
  JulianDay y m d = JulianDay y' m' d' -> (y, m, d) = (y', m', d').
Proof. exact JulianDay_inj. Qed.
Print Assumptions C12_injective.

(** No [int] overflow up to the year five million. *)
Theorem C12_in_range : forall y m d : Z, -4799 <= y <= 5000000 -> valid_date y m d ->
  in_int (JulianDay y m d) /\ in_int (365 * (y + 4800)).
Proof. exact JulianDay_fits. Qed.
Print Assumptions C12_in_range.

(** Truncating division breaks earlier years. *)
Theorem C12_next_day_refuted : exists y m d y' m' d', valid_date y m d /\
  next_day (y, m, d) = (y', m', d') /\ JulianDay y' m' d' <> JulianDay y m d + 1.
Proof.
  exists (-4800), 2, 29, (-4800), 3, 1. split; [unfold valid_date; cbn; lia|]. split; [reflexivity|]. vm_compute. discriminate.
Qed.
Print Assumptions C12_next_day_refuted.

Example C12_ex : next_day (1999, 12, 31) = (2000, 1, 1) /\ JulianDay 1999 12 31 = 2451544 /\ JulianDay 2000 1 1 = 2451545.
Proof. repeat split. Qed.

(** C13. Forward and Backward ignore their argument: they add (subtract) the
    object's own millisecond field. *)
Theorem C13_forward : forall (localtime : Z -> tm) (mktime : tm -> Z * tm) (x : DateTime) (ims : Z),
  let t := (dt_filetime x + dt_ms x) / 1000 in mktime (localtime t) = (t, localtime t) ->
  0 <= dt_filetime x + dt_ms x < 2 ^ 64 ->
  dt_filetime (Forward localtime mktime x ims) = dt_filetime x + dt_ms x.
Proof. exact Forward_value. Qed.
Print Assumptions C13_forward.

Theorem C13_backward : forall (localtime : Z -> tm) (mktime : tm -> Z * tm) (x : DateTime) (ims : Z),
  let t := (dt_filetime x - dt_ms x) / 1000 in mktime (localtime t) = (t, localtime t) ->
  0 <= dt_filetime x - dt_ms x < 2 ^ 64 ->
  dt_filetime (Backward localtime mktime x ims) = dt_filetime x - dt_ms x.
Proof. exact Backward_value. Qed.
Print Assumptions C13_backward.

Theorem C13_honours_argument_refuted : exists (x : DateTime) (ims : Z), 0 <= ims < 1000 /\
  dt_filetime (Forward (zone_localtime 0) (zone_mktime 0) x ims) <> dt_filetime x + ims /\
  dt_filetime (Backward (zone_localtime 0) (zone_mktime 0) x ims) <> dt_filetime x - ims.
Proof.
  exists (FromDateTime (zone_mktime 0) 1970 1 2 0 0 7 5), 500. split; [lia|]. split; vm_compute; discriminate.
Qed.
Print Assumptions C13_honours_argument_refuted.

(** The contract of the two libc functions is met by a zone at UTC from 1970 on. *)
Example C13_ex : (forall t, 0 <= t -> zone_mktime 0 (zone_localtime 0 t) = (t, zone_localtime 0 t)) /\
  dt_filetime (Forward (zone_localtime 0) (zone_mktime 0) (FromDateTime (zone_mktime 0) 1970 1 2 0 0 7 5) 500) = 86407010.
Proof. split; [intros t Ht; apply zone_roundtrip; lia|]. vm_compute. auto. Qed.

(** C60. UTC dates of instants. *)
Theorem C60_ymd_roundtrip : forall (localtime : Z -> tm) (y m d : Z), 1970 <= y <= 9999 -> valid_date y m d ->
  GetDateInfoFromTimet localtime (ConvertYMDToTime y m d) true = [y; m; d].
Proof. exact ymd_roundtrip. Qed.
Print Assumptions C60_ymd_roundtrip.

Theorem C60_date_info : forall (localtime : Z -> tm) (t : Z), 0 <= t < Y10K ->
  GetDateInfoFromTimet localtime t true = [GetYear localtime t true; GetMonth localtime t true; GetDay localtime t true].
Proof. exact GetDateInfo_ok. Qed.
Print Assumptions C60_date_info.

Theorem C60_julian_day : forall (localtime : Z -> tm) (t : Z), 0 <= t ->
  JulianDay_t localtime t true = 2440588 + t / 86400.
Proof. exact JulianDay_t_spec. Qed.
Print Assumptions C60_julian_day.

Theorem C60_day_of_year : forall (localtime : Z -> tm) (t : Z), 0 <= t ->
  DayOfYear_t localtime t true = DayOfYear (GetYear localtime t true) (GetMonth localtime t true) (GetDay localtime t true).
Proof. exact DayOfYear_t_spec. Qed.
Print Assumptions C60_day_of_year.

(** From the year 10000 on, only a wrong year is assigned to the outputs and
    ConvertToString overflows its buffer limit. *)
Theorem C60_late_years_refuted : forall (localtime : Z -> tm) (y m d : Z), 10000 <= y <= 99999 -> valid_date y m d ->
  GetDateInfoFromTimet localtime (ConvertYMDToTime y m d) true = [y / 10] /\
  ConvertToString localtime (ConvertYMDToTime y m d) true = UB.
Proof. exact ymd_late. Qed.
Print Assumptions C60_late_years_refuted.

Example C60_ex : valid_date 1972 2 29 /\ ConvertYMDToTime 1972 2 29 = 68169600 /\
  GetDateInfoFromTimet (fun _ => gmtime 0) 68169600 true = [1972; 2; 29].
Proof. split; [unfold valid_date; cbn; lia|]. vm_compute. auto. Qed.
Example C60_ex_late : valid_date 10000 1 1 /\ ConvertYMDToTime 10000 1 1 = Y10K.
Proof. split; [unfold valid_date; cbn; lia|]. reflexivity. Qed.

(** C61. Text of UTC instants reads back. *)
Theorem C61_date_text : forall (localtime : Z -> tm) (t : Z) (fmt : bytes), 0 <= t < Y10K ->
  fmt = str "%4d-%2d-%2d" \/ fmt = str "%d-%d-%d" ->
  exists s, ConvertToString localtime t true = Ok s /\
            ConvertToTime s fmt false = Some (Ok (86400 * (t / 86400))).
Proof. exact date_text_roundtrip. Qed.
Print Assumptions C61_date_text.

Theorem C61_time_text : forall (localtime : Z -> tm) (t : Z), 0 <= t < Y10K ->
  exists s, ConvertToString2 localtime t true = Ok s /\
   ConvertToTime s (str "%4d-%2d-%2d %2d:%2d:%2d") true = Some (Ok t) /\
   ConvertToTime s (str "%d-%d-%d %d:%d:%d") true = Some (Ok t).
Proof. exact time_text_roundtrip. Qed.
Print Assumptions C61_time_text.

Theorem C61_compact_text : forall (localtime : Z -> tm) (t : Z), 0 <= t < Y10K ->
  exists s, ConvertToString3 localtime t true = Ok s /\
   ConvertToTime s (str "%4d_%2d_%2d_%2d%2d%2d") true = Some (Ok t).
Proof. exact compact_text_roundtrip. Qed.
Print Assumptions C61_compact_text.

(** Text that does not match the format leaves year, month or day unset. *)
Theorem C61_mismatch_refuted : exists s fmt, s <> [] /\ ConvertToTime s fmt false = Some UB.
Proof. exists (str "2020/01/02"), (str "%4d-%2d-%2d"). split; [discriminate|]. reflexivity. Qed.
Print Assumptions C61_mismatch_refuted.

Example C61_ex : ConvertToString (fun _ => gmtime 0) 68169661 true = Ok (str "1972-02-29") /\
  ConvertToString2 (fun _ => gmtime 0) 68169661 true = Ok (str "1972-02-29 00:01:01") /\
  ConvertToString3 (fun _ => gmtime 0) 68169661 true = Ok (str "1972_02_29_000101").
Proof. vm_compute. auto. Qed.

(** C62. The daylight saving correction of ConvertToString2/3 goes back one hour
    except at midnight of the first of a month. *)
Theorem C62_dst_hour : forall d : tm, fields_ok d -> tm_isdst d > 0 -> tm_hour d <> 0 \/ 1 < tm_mday d ->
  exists d', dst_fix d = Ok d' /\ fields_ok d' /\ instant d' = instant d - 3600.
Proof. exact dst_fix_ok. Qed.
Print Assumptions C62_dst_hour.

Theorem C62_dst_text : forall (localtime : Z -> tm) (t : Z) (d' : tm),
  dst_fix (localtime t) = Ok d' ->
  ConvertToString2 localtime t false = Ok (strf_date "-" d' ++ str " " ++ strf_time d') /\
  ConvertToString3 localtime t false = Ok (strf_date "_" d' ++ str "_" ++ pad2 (tm_hour d') ++ pad2 (tm_min d') ++ pad2 (tm_sec d')).
Proof. intros localtime t d' E. unfold ConvertToString2, ConvertToString3, GetDateTime. rewrite E. auto. Qed.
Print Assumptions C62_dst_text.

(** 1 January 00:xx reads month_days[-1]; 1 February 00:xx becomes month 13. *)
Theorem C62_first_of_january_refuted : forall d : tm, tm_isdst d > 0 -> tm_hour d = 0 -> tm_mday d = 1 -> tm_mon d = 0 ->
  dst_fix d = UB.
Proof. exact dst_fix_january. Qed.
Print Assumptions C62_first_of_january_refuted.

Theorem C62_first_of_february_refuted : forall d : tm, tm_isdst d > 0 -> tm_hour d = 0 -> tm_mday d = 1 -> tm_mon d = 1 ->
  exists d', dst_fix d = Ok d' /\ tm_mon d' + 1 = 13.
Proof. exact dst_fix_february. Qed.
Print Assumptions C62_first_of_february_refuted.

(** 1 March 2021 00:30 is printed as "2021-02-31 23:30:00". *)
Theorem C62_first_of_march_refuted : exists d d', fields_ok d /\ tm_isdst d > 0 /\ dst_fix d = Ok d' /\
  strf_date "-" d' = str "2021-02-31" /\ ~ fields_ok d'.
Proof.
  exists (mkTm 121 2 1 0 30 0 1 59 1). eexists. split; [unfold fields_ok, valid_date; cbn; lia|]. split; [cbn; lia|].
  split; [reflexivity|]. split; [reflexivity|]. unfold fields_ok, valid_date. cbn. lia.
Qed.
Print Assumptions C62_first_of_march_refuted.

Example C62_ex : let d := mkTm 121 6 15 0 30 0 4 195 1 in fields_ok d /\ tm_isdst d > 0 /\ 1 < tm_mday d /\
  ConvertToString2 (fun _ => d) 0 false = Ok (str "2021-07-14 23:30:00").
Proof. split; [unfold fields_ok, valid_date; cbn; lia|]. split; [cbn; lia|]. split; [cbn; lia|reflexivity]. Qed.

(** C63. In a zone with a fixed offset, the local and the UTC clock readings of
    one instant convert into each other. *)
Theorem C63_local_utc : forall off now ms : Z, 0 <= ms < 1000 -> 0 <= now <= MAXSEC -> 0 <= now + off -> 0 <= now - off <= MAXSEC ->
  let L := LocalTimeNow (zone_localtime off) (zone_mktime off) now ms in
  let U := UTCTimeNow (zone_mktime off) now ms in
  ToUTCTime (zone_mktime off) L = U /\ ToLocalTime (zone_localtime off) (zone_mktime off) now U = L.
Proof. exact zone_local_utc. Qed.
Print Assumptions C63_local_utc.

Example C63_ex : let L := LocalTimeNow (zone_localtime 28800) (zone_mktime 28800) 86400 5 in
  let U := UTCTimeNow (zone_mktime 28800) 86400 5 in
  tm_hour (dt_tm L) = 8 /\ tm_hour (dt_tm U) = 0 /\ dt_filetime L <> dt_filetime U.
Proof. vm_compute. split; [auto|]. split; [auto|discriminate]. Qed.

(** C64. FromDateTime keeps its fields, and FromFileTime of the resulting file
    time gives the same object back. *)
Theorem C64_from_date_time : forall off y m d h mi s ms : Z,
  1970 <= y -> valid_date y m d -> 0 <= h < 24 -> 0 <= mi < 60 -> 0 <= s < 60 -> 0 <= ms < 1000 ->
  0 <= timegm (y - 1900) (m - 1) d h mi s - off <= MAXSEC ->
  let x := FromDateTime (zone_mktime off) y m d h mi s ms in
  (tm_year (dt_tm x) + 1900, tm_mon (dt_tm x) + 1, tm_mday (dt_tm x)) = (y, m, d) /\
  (tm_hour (dt_tm x), tm_min (dt_tm x), tm_sec (dt_tm x), dt_ms x) = (h, mi, s, ms) /\
  tm_yday (dt_tm x) = DayOfYear y m d - 1 /\
  FromFileTime (zone_localtime off) (zone_mktime off) (dt_filetime x) = x.
Proof. exact zone_FromDateTime. Qed.
Print Assumptions C64_from_date_time.

(** With a millisecond argument of a second or more the round trip fails. *)
Theorem C64_large_ms_refuted : exists y m d h mi s ms,
  let x := FromDateTime (zone_mktime 0) y m d h mi s ms in
  FromFileTime (zone_localtime 0) (zone_mktime 0) (dt_filetime x) <> x.
Proof. exists 1970, 1, 2, 0, 0, 0, 1500. vm_compute. discriminate. Qed.
Print Assumptions C64_large_ms_refuted.

Example C64_ex : let x := FromDateTime (zone_mktime 3600) 1972 2 29 13 5 6 7 in
  valid_date 1972 2 29 /\ tm_wday (dt_tm x) = 2 /\ tm_yday (dt_tm x) = 59 /\ dt_filetime x = 68213106007.
Proof. split; [unfold valid_date; cbn; lia|]. vm_compute. auto. Qed.
