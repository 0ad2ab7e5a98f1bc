(** The part of Python 2's [datetime]/[calendar] modules that CalCore uses.

    The library is not in /repo; this file follows CPython's Lib/_pydatetime
    algorithms and Modules/datetimemodule.c (argument ranges and exceptions).
    - a [date] is its proleptic Gregorian ordinal, 1 = 0001-01-01 .. 3652059 = 9999-12-31;
    - a naive [datetime] is [ordinal * DAY + microseconds since midnight];
    - a [time] is microseconds since midnight, a [timedelta] is microseconds
      (its own limit of 999999999 days, beyond which it raises OverflowError, is left to Limits.v). *)
From Verif Require Import Base.

(** timedelta(1), cal.py 210, 939, 1140 *)
Definition DAY : Z := 86400000000.
(** datetime.hour, cal.py 1121 *)
Definition HOUR : Z := 3600000000.
(** timedelta(minutes=1), cal.py 1073 *)
Definition MINUTE : Z := 60000000.
(** datetime.second, cal.py 1121 *)
Definition SECOND : Z := 1000000.
(** date.max.toordinal(), the bound on recurrent.py 134, 279, 461 *)
Definition MAXORD : Z := 3652059.
(** datetime.MAXYEAR, the bound on recurrent.py 197, 345, 454 *)
Definition MAXYEAR : Z := 9999.
(** [INT_MAX]: the C argument parser of [date(...)]/[replace(...)] raises
    OverflowError beyond it, before the ValueError range check. See recurrent.py 197, 345, 454. *)
Definition INT_MAX : Z := 2147483647.
(** the lower bound of the same argument parser, recurrent.py 197, 345, 454 *)
Definition INT_MIN : Z := -2147483648.

(** calendar.isleap, behind recurrent.py 393 and every date *)
Definition is_leap (y : Z) : bool :=
  (y mod 4 =? 0) && (negb (y mod 100 =? 0) || (y mod 400 =? 0)).

(** [calendar.monthrange(y, m)[1]], recurrent.py 393 *)
Definition days_in_month (y m : Z) : Z :=
  if m =? 2 then (if is_leap y then 29 else 28)
  else if (m =? 4) || (m =? 6) || (m =? 9) || (m =? 11) then 30 else 31.

(** number of days before January 1st of year [y], part of date(...), recurrent.py 454 and isoweek.py 26-27 *)
Definition days_before_year (y : Z) : Z :=
  let p := y - 1 in p * 365 + p / 4 - p / 100 + p / 400.

(** days before each month of a common year, part of date(...), recurrent.py 454 *)
Definition dbm_common (m : Z) : Z :=
  if m =? 1 then 0 else if m =? 2 then 31 else if m =? 3 then 59 else if m =? 4 then 90
  else if m =? 5 then 120 else if m =? 6 then 151 else if m =? 7 then 181
  else if m =? 8 then 212 else if m =? 9 then 243 else if m =? 10 then 273
  else if m =? 11 then 304 else if m =? 12 then 334 else 365.

(** number of days of year [y] before the first day of month [m], part of date(...), recurrent.py 454 *)
Definition days_before_month (y m : Z) : Z :=
  dbm_common m + (if (2 <? m) && is_leap y then 1 else 0).

(** date(y, m, d).toordinal(), part of recurrent.py 454 and isoweek.py 26-27, 39 *)
Definition ymd2ord (y m d : Z) : Z :=
  days_before_year y + days_before_month y m + d.

(** [date(y, m, d)] as an ordinal. The range check of date(...), recurrent.py 197, 345, 454. *)
Definition valid_ymd (y m d : Z) : bool :=
  (1 <=? y) && (y <=? MAXYEAR) && (1 <=? m) && (m <=? 12)
  && (1 <=? d) && (d <=? days_in_month y m).

(** the C argument parser, recurrent.py 197, 345, 454 *)
Definition c_int (z : Z) : bool := (INT_MIN <=? z) && (z <=? INT_MAX).

(** date(y, m, d), recurrent.py 454 and 461, isoweek.py 26, 27, 39 *)
Definition py_date (y m d : Z) : res Z :=
  if negb (c_int y && c_int m && c_int d) then Raise OverflowError
  else if valid_ymd y m d then Ok (ymd2ord y m d)
  else Raise ValueError.

(** month and day from a zero-based day-of-year (CPython's [_ord2ymd] tail), behind recurrent.py 196, 339-340 *)
Definition yday_month (leap : bool) (n : Z) : Z :=
  let m := (n + 50) / 32 in
  let prec := dbm_common m + (if (2 <? m) && leap then 1 else 0) in
  if n <? prec then m - 1 else m.

(** CPython's [_ord2ymd]. Behind recurrent.py 196, 339-340, 371. *)
Definition ord2ymd (ord : Z) : Z * Z * Z :=
  let n := ord - 1 in
  let n400 := n / 146097 in let n := n mod 146097 in
  let n100 := n / 36524 in let n := n mod 36524 in
  let n4 := n / 1461 in let n := n mod 1461 in
  let n1 := n / 365 in let n := n mod 365 in
  let year := n400 * 400 + 1 + n100 * 100 + n4 * 4 + n1 in
  if (n1 =? 4) || (n100 =? 4) then (year - 1, 12, 31)
  else
    let leap := (n1 =? 3) && (negb (n4 =? 24) || (n100 =? 3)) in
    let m := yday_month leap n in
    (year, m, n - (dbm_common m + (if (2 <? m) && leap then 1 else 0)) + 1).

(** date.year, recurrent.py 196, 339, 368 *)
Definition year_of (o : Z) : Z := fst (fst (ord2ymd o)).
(** date.month, recurrent.py 340, 369 *)
Definition month_of (o : Z) : Z := snd (fst (ord2ymd o)).
(** date.day, recurrent.py 371, 394 *)
Definition day_of (o : Z) : Z := snd (ord2ymd o).

(** [date.replace(year=y, month=m)], recurrent.py 197 and 345 *)
Definition date_replace (o y m : Z) : res Z := py_date y m (day_of o).

(** [date.weekday()]: Monday is 0, recurrent.py 262, 271, 370, 433 *)
Definition weekday (o : Z) : Z := (o + 6) mod 7.
(** [date.isoweekday()]: Monday is 1, isoweek.py 28 *)
Definition isoweekday (o : Z) : Z := weekday o + 1.

(** [date + timedelta(k)], recurrent.py 134, 279, 433, 461 and cal.py 210, 214 *)
Definition date_add (o k : Z) : res Z :=
  if (1 <=? o + k) && (o + k <=? MAXORD) then Ok (o + k) else Raise OverflowError.

(** [date.isocalendar()], CPython's [iso_week1_monday] and [date_isocalendar]. Behind isoweek.py 40. *)
Definition iso_week1_monday (y : Z) : Z :=
  let first_day := ymd2ord y 1 1 in
  let first_weekday := (first_day + 6) mod 7 in
  let m := first_day - first_weekday in
  if 3 <? first_weekday then m + 7 else m.

(** date.isocalendar(), isoweek.py 40 *)
Definition isocalendar (o : Z) : Z * Z * Z :=
  let y := year_of o in
  let w1 := iso_week1_monday y in
  let week := (o - w1) / 7 in
  let d := (o - w1) mod 7 in
  if week <? 0 then
    let w1' := iso_week1_monday (y - 1) in
    (y - 1, (o - w1') / 7 + 1, (o - w1') mod 7 + 1)
  else if (52 <=? week) && (iso_week1_monday (y + 1) <=? o) then
    (y + 1, 1, d + 1)
  else (y, week + 1, d + 1).

(** datetimes, [t.date()], cal.py 197, 207, 443, 507, 1140 *)
Definition dt_date (t : Z) : Z := t / DAY.
(** [t.time()], cal.py 209, 236, 510 *)
Definition dt_time (t : Z) : Z := t mod DAY.
(** [datetime.combine(d, t)], cal.py 23, 197, 443, 510, 1140 *)
Definition combine (d tod : Z) : Z := d * DAY + tod.
(** representable datetimes, the bound on cal.py 192, 531, 1084, 1136 *)
Definition dt_ok (t : Z) : bool := (DAY <=? t) && (t <? (MAXORD + 1) * DAY).
(** [datetime + timedelta], cal.py 192, 531, 939, 1084, 1136, 1140 *)
Definition dt_add (t k : Z) : res Z :=
  if dt_ok (t + k) then Ok (t + k) else Raise OverflowError.

(** [timedelta.days], and the normalised seconds/microseconds remainder, cal.py 449, 1097 *)
Definition td_days (k : Z) : Z := k / DAY.
(** td.seconds and td.microseconds, cal.py 450 and 1096 *)
Definition td_rest (k : Z) : Z := k mod DAY.

(** broken-down time of day, cal.py 1121 *)
Definition tod_hour (t : Z) : Z := t / HOUR.
(** dt.minute, cal.py 1121 *)
Definition tod_minute (t : Z) : Z := (t mod HOUR) / MINUTE.
(** dt.second, cal.py 1121 *)
Definition tod_second (t : Z) : Z := (t mod MINUTE) / SECOND.
