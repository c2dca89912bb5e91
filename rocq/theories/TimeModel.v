(** Date and time functions (src/utils_time.cpp, src/utils_time.h).

    C integer division truncates ([Z.quot]/[Z.rem]); [int] sums are exact. libc
    ([gmtime_r], [timegm], [strftime]) is modelled by its POSIX definition on
    instants from 1970 on; [localtime_r] and [mktime] are parameters. *)
From Coq Require Import ZArith Ascii String List Bool.
From Verif Require Import Base StrModel ScanModel.
Import ListNotations.
Open Scope Z_scope.
Open Scope outcome_scope.

(** utils_time.h:31 IsLeapYear. *)
Definition IsLeapYear (yr : Z) : bool :=
  (Z.rem yr 4 =? 0) && (negb (Z.rem yr 100 =? 0) || (Z.rem yr 400 =? 0)).

(** utils_time.cpp:265-271 JulianDay(year, month, day). *)
Definition JulianDay (year month day : Z) : Z :=
  let a := Z.quot (14 - month) 12 in
  let y := year + 4800 - a in
  let m := month + 12 * a - 3 in
  day + Z.quot (153 * m + 2) 5 + 365 * y + Z.quot y 4 - Z.quot y 100 + Z.quot y 400 - 32045.

(** utils_time.cpp:253-255 DayOfYear(year, month, day). *)
Definition DayOfYear (year month day : Z) : Z :=
  JulianDay year month day - JulianDay year 1 1 + 1.

(** [struct tm]. Filled at utils_time.cpp:197-211. *)
Record tm := mkTm {
  tm_year : Z; tm_mon : Z; tm_mday : Z; tm_hour : Z; tm_min : Z; tm_sec : Z;
  tm_wday : Z; tm_yday : Z; tm_isdst : Z }.

(** *** libc: the proleptic Gregorian calendar (POSIX)
    For gmtime_r and timegm (utils_time.cpp:144, 209). *)
Definition greg_leap (y : Z) : bool := (y mod 4 =? 0) && (negb (y mod 100 =? 0) || (y mod 400 =? 0)).
(** For gmtime_r and timegm (utils_time.cpp:144, 209). *)
Definition month_len (y m : Z) : Z :=
  if m =? 2 then (if greg_leap y then 29 else 28)
  else if (m =? 4) || (m =? 6) || (m =? 9) || (m =? 11) then 30 else 31.
(** The day after. For gmtime_r and timegm (utils_time.cpp:144, 209). *)
Definition next_day (d : Z * Z * Z) : Z * Z * Z :=
  let '(y, m, dd) := d in
  if dd <? month_len y m then (y, m, dd + 1)
  else if m <? 12 then (y, m + 1, 1) else (y + 1, 1, 1).
(** Days between 1 January and the first of month [m] (1..12).
    For gmtime_r and timegm (utils_time.cpp:144, 209). *)
Definition days_before (y m : Z) : Z :=
  fold_left (fun s k => s + month_len y (Z.of_nat k)) (seq 1 (Z.to_nat (m - 1))) 0.

(** [gmtime_r] for t >= 0: count days from 1 January 1970, a Thursday. utils_time.cpp:209. *)
Definition gmtime (t : Z) : tm :=
  let days := t / 86400 in
  let sod := t mod 86400 in
  let '(y, m, d) := Nat.iter (Z.to_nat days) next_day (1970, 1, 1) in
  mkTm (y - 1900) (m - 1) d (sod / 3600) (sod mod 3600 / 60) (sod mod 60)
       ((4 + days) mod 7) (days_before y m + d - 1) 0.

(** [timegm]: POSIX "seconds since the epoch" after normalising the month.
    utils_time.cpp:144, 169. *)
Definition timegm (year mon mday hour min sec : Z) : Z :=
  let y := year + 1900 + mon / 12 in
  let m := mon mod 12 + 1 in
  let days := (y - 1970) * 365 + (y - 1969) / 4 - (y - 1901) / 100 + (y - 1601) / 400 + days_before y m + mday - 1 in
  days * 86400 + hour * 3600 + min * 60 + sec.

(** [strftime] pieces: %Y and zero-padded %m %d %H %M %S. utils_time.cpp:37, 70, 107. *)
Definition pad2 (z : Z) : bytes := if z <? 10 then "0"%char :: itoa z else itoa z.
(** utils_time.cpp:37, 70, 107. *)
Definition strf_date (sep : ascii) (t : tm) : bytes :=
  itoa (tm_year t + 1900) ++ [sep] ++ pad2 (tm_mon t + 1) ++ [sep] ++ pad2 (tm_mday t).
(** %X in the "C" locale. utils_time.cpp:37, 70, 107. *)
Definition strf_time (t : tm) : bytes :=
  pad2 (tm_hour t) ++ [":"%char] ++ pad2 (tm_min t) ++ [":"%char] ++ pad2 (tm_sec t).

(** *** The library *)
Section Lib.
(** [localtime_r]. utils_time.cpp:201. *)
Variable localtime : Z -> tm.

(** utils_time.cpp:213-219 GetDateTime (LocalTime 197-203, UTCTime 205-211). *)
Definition GetDateTime (t : Z) (utc : bool) : tm := if utc then gmtime t else localtime t.

(** utils_time.cpp:221-227, 229-235, 237-243, 245-251: GetYear, GetMonth, GetDay,
    DayOfYear(date). *)
Definition GetYear (t : Z) (utc : bool) : Z := tm_year (GetDateTime t utc) + 1900.
(** utils_time.cpp:229-235. *)
Definition GetMonth (t : Z) (utc : bool) : Z := tm_mon (GetDateTime t utc) + 1.
(** utils_time.cpp:237-243. *)
Definition GetDay (t : Z) (utc : bool) : Z := tm_mday (GetDateTime t utc).
(** utils_time.cpp:245-251. *)
Definition DayOfYear_t (t : Z) (utc : bool) : Z := tm_yday (GetDateTime t utc) + 1.

(** utils_time.cpp:257-263 JulianDay(date, utc_time). *)
Definition JulianDay_t (t : Z) (utc : bool) : Z :=
  let d := GetDateTime t utc in JulianDay (tm_year d + 1900) (tm_mon d + 1) (tm_mday d).

(** Assignment to members of [struct tm], utils_time.cpp:46-68. *)
Definition set_hour (t : tm) (h : Z) : tm :=
  mkTm (tm_year t) (tm_mon t) (tm_mday t) h (tm_min t) (tm_sec t) (tm_wday t) (tm_yday t) (tm_isdst t).
(** Assignment to members of [struct tm], utils_time.cpp:46-68. *)
Definition set_date (t : tm) (y mo d h : Z) : tm :=
  mkTm y mo d h (tm_min t) (tm_sec t) (tm_wday t) (tm_yday t) (tm_isdst t).

(** utils_time.cpp:30-40 ConvertToString. The buffer holds 10 characters; when
    the text is longer [strftime] leaves it unspecified ([UB]). *)
Definition ConvertToString (t : Z) (utc : bool) : outcome bytes :=
  let d := GetDateTime t utc in
  let d := if tm_isdst d >? 0 then set_hour d (tm_hour d - 1) else d in
  let s := strf_date "-" d in
  if (length s <=? 10)%nat then Ok s else UB.

(** utils_time.cpp:43 and 77 month_days. *)
Definition month_days : list Z := [0; 31; 28; 31; 30; 31; 30; 31; 31; 30; 31; 30; 31].

(** utils_time.cpp:46-68 and 80-105: the daylight saving correction of
    ConvertToString2 and ConvertToString3. *)
Definition dst_fix (d : tm) : outcome tm :=
  if tm_isdst d >? 0 then
    if negb (tm_hour d =? 0) then Ok (set_hour d (tm_hour d - 1))
    else
      let mday := tm_mday d - 1 in
      if mday =? 0 then
        let mon := tm_mon d - 1 in
        if mon =? 0 then Ok (set_date d (tm_year d - 1) 12 31 23)
        else
          let* n := aget month_days mon in
          Ok (set_date d (tm_year d) mon (if IsLeapYear (tm_year d) then n + 1 else n) 23)
      else Ok (set_date d (tm_year d) (tm_mon d) mday 23)
  else Ok d.

(** utils_time.cpp:42-74 ConvertToString2. *)
Definition ConvertToString2 (t : Z) (utc : bool) : outcome bytes :=
  let* d := dst_fix (GetDateTime t utc) in
  Ok (strf_date "-" d ++ [" "%char] ++ strf_time d).

(** utils_time.cpp:76-111 ConvertToString3. *)
Definition ConvertToString3 (t : Z) (utc : bool) : outcome bytes :=
  let* d := dst_fix (GetDateTime t utc) in
  Ok (strf_date "_" d ++ ["_"%char] ++ pad2 (tm_hour d) ++ pad2 (tm_min d) ++ pad2 (tm_sec d)).

(** utils_time.cpp:113-155 ConvertToTime, UTC branch. Variables that [sscanf]
    did not assign are read uninitialised ([UB]); hour, minute and second start
    at 0. Formats outside the modelled part: [None]. *)
Definition nth_or (l : list Z) (n : nat) (d : Z) : Z := nth n l d.
(** utils_time.cpp:113-155. *)
Definition ConvertToTime (s fmt : bytes) (include_hour : bool) : option (outcome Z) :=
  match s with
  | [] => Some (Ok 0)
  | _ =>
      match parse_fmt None fmt with
      | None => None
      | Some ds =>
          let vs := sscanf ds s in
          Some (match vs with
                | y :: m :: d :: rest =>
                    Ok (if include_hour
                        then timegm (y - 1900) (m - 1) d (nth_or rest 0 0) (nth_or rest 1 0) (nth_or rest 2 0)
                        else timegm (y - 1900) (m - 1) d 0 0 0)
                | _ => UB
                end)
      end
  end.

(** utils_time.cpp:157-180 ConvertYMDToTime, UTC branch. *)
Definition ConvertYMDToTime (y m d : Z) : Z := timegm (y - 1900) (m - 1) d 0 0 0.

(** utils_time.cpp:182-195 GetDateInfoFromTimet: prints and scans; the three
    numbers scanned. *)
Definition fmt_date_info : list directive :=
  [SInt (Some 4%nat); SLit "-"; SInt (Some 2%nat); SLit "-"; SInt (Some 2%nat); SWs;
   SInt (Some 2%nat); SLit ":"; SInt (Some 2%nat); SLit ":"; SInt (Some 2%nat)].
(** utils_time.cpp:182-195. *)
Definition GetDateInfoFromTimet (t : Z) (utc : bool) : list Z :=
  let d := GetDateTime t utc in
  let d := if tm_isdst d >? 0 then set_hour d (tm_hour d - 1) else d in
  firstn 3 (sscanf fmt_date_info (strf_date "-" d ++ [" "%char] ++ strf_time d)).

(** [mktime]: the instant and the normalised [struct tm] it leaves behind.
    utils_time.cpp:316. *)
Variable mktime : tm -> Z * tm.

(** struct DateTime (utils_time.h:156-206): the calendar fields are kept as the
    [struct tm] they are copied from (day_of_year = tm_yday); total_milliseconds
    is always equal to filetime on this platform and left out. *)
Record DateTime := mkDT { dt_tm : tm; dt_ms : Z; dt_filetime : Z }.

(** basic.h:346 CVT_VUINT64. *)
Definition wrapu64 (z : Z) : Z := z mod 18446744073709551616.

(** utils_time.cpp:315-332 ConvertTMToDateTime (GCC branch). *)
Definition ConvertTMToDateTime (t : tm) (ms : Z) : DateTime :=
  let (timer, t') := mktime t in
  mkDT t' (wrap32 ms) (wrapu64 (timer * 1000 + ms)).

(** utils_time.cpp:341-358 DateTime::LocalTime and 360-377 DateTime::UTCTime,
    at instant [now] with [ms] milliseconds (GetCurrentMilliseconds, 334-338). *)
Definition LocalTimeNow (now ms : Z) : DateTime := ConvertTMToDateTime (localtime now) ms.
(** utils_time.cpp:360-377. *)
Definition UTCTimeNow (now ms : Z) : DateTime := ConvertTMToDateTime (gmtime now) ms.

(** utils_time.cpp:379-411 DateTime::FromDateTime (GCC branch); memset gives
    zero weekday and day of year. *)
Definition FromDateTime (y m d h mi s ms : Z) : DateTime :=
  ConvertTMToDateTime (mkTm (y - 1900) (m - 1) d h mi s 0 0 (-1)) ms.

(** utils_time.cpp:413-436 DateTime::FromFileTime (GCC branch). *)
Definition FromFileTime (ft : Z) : DateTime :=
  ConvertTMToDateTime (localtime (ft / 1000)) (ft mod 1000).

(** utils_time.cpp:445-465 DateTime::ToLocalTime (GCC branch), called at instant
    [now]. *)
Definition ToLocalTime (now : Z) (x : DateTime) : DateTime :=
  let utc_timer := fst (mktime (gmtime now)) in
  ConvertTMToDateTime (localtime (dt_filetime x / 1000 + now - utc_timer)) (dt_ms x).

(** utils_time.cpp:467-486 DateTime::ToUTCTime (GCC branch). *)
Definition ToUTCTime (x : DateTime) : DateTime :=
  ConvertTMToDateTime (gmtime (dt_filetime x / 1000)) (dt_ms x).

(** utils_time.cpp:488-494, 496-502 Forward, Backward (GCC branch). The int field
    is converted to unsigned 64 bits. *)
Definition Forward (x : DateTime) (ims : Z) : DateTime := FromFileTime (wrapu64 (dt_filetime x + dt_ms x)).
(** utils_time.cpp:496-502. *)
Definition Backward (x : DateTime) (ims : Z) : DateTime := FromFileTime (wrapu64 (dt_filetime x - dt_ms x)).
End Lib.

(** A time zone with a fixed offset of [off] seconds east of UTC and no daylight
    saving time, as libc implements it.
    An instance of localtime_r and mktime (utils_time.cpp:201, 316). *)
Definition zone_localtime (off t : Z) : tm := gmtime (t + off).
(** An instance of localtime_r and mktime (utils_time.cpp:201, 316). *)
Definition zone_mktime (off : Z) (t : tm) : Z * tm :=
  let r := timegm (tm_year t) (tm_mon t) (tm_mday t) (tm_hour t) (tm_min t) (tm_sec t) - off in
  (r, zone_localtime off r).
