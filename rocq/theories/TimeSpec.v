(** Vocabulary for the date properties. The Gregorian calendar itself
    ([greg_leap], [month_len], [next_day], [days_before]) is in TimeModel, where
    it models libc. *)
From Coq Require Import ZArith.
From Verif Require Import TimeModel.
Open Scope Z_scope.

(** A civil date of the proleptic Gregorian calendar. *)
Definition valid_date (y m d : Z) : Prop := 1 <= m <= 12 /\ 1 <= d <= month_len y m.

(** Calendar order. *)
Definition before_date (a b : Z * Z * Z) : Prop :=
  let '(y, m, d) := a in let '(y', m', d') := b in
  y < y' \/ (y = y' /\ (m < m' \/ (m = m' /\ d < d'))).

(** Civil date of an instant in UTC. *)
Definition utc_date (t : Z) : Z * Z * Z := (tm_year (gmtime t) + 1900, tm_mon (gmtime t) + 1, tm_mday (gmtime t)).

(** First second of the year 10000. *)
Definition Y10K : Z := 253402300800.

(** Seconds since the epoch of broken-down time, and in-range fields. *)
Definition instant (d : tm) : Z := timegm (tm_year d) (tm_mon d) (tm_mday d) (tm_hour d) (tm_min d) (tm_sec d).
Definition fields_ok (d : tm) : Prop :=
  valid_date (tm_year d + 1900) (tm_mon d + 1) (tm_mday d) /\ 0 <= tm_hour d <= 23 /\ 0 <= tm_min d <= 59 /\ 0 <= tm_sec d <= 59.

(** Largest number of seconds whose milliseconds fit 64 bits. *)
Definition MAXSEC : Z := 18446744073709550.

