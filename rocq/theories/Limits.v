(** The limits of [timedelta], left out of PyDate.v: CPython's datetimemodule.c
    refuses a [timedelta] of more than 999999999 days, or of less than
    -999999999 days, with OverflowError. *)
From Verif Require Import Base PyDate CalTime Event.

(** timedelta.max.days, the bound on cal.py 445-453, 1073, 1097 and recurrent.py 134, 458 *)
Definition MAXDAYS : Z := 999999999.

(** is there such a timedelta? Behind cal.py 445-453, 1073, 1097 and recurrent.py 134, 458 *)
Definition td_ok (k : Z) : bool := (- MAXDAYS * DAY <=? k) && (k <? (MAXDAYS + 1) * DAY).

(** making a timedelta, cal.py 446, 450, 453, 1073, 1097 and recurrent.py 134, 458 *)
Definition mk_td (k : Z) : res Z := if td_ok k then Ok k else Raise OverflowError.

(** alldayAdjust, cal.py 442-453, assignment by assignment: the start has already
    been moved when the new duration turns out to be too long *)
Definition allday_adjust_lim (e : event) : mut :=
  let start := combine (dt_date (e_dtstart e)) 0 in
  let e1 := with_time e start (e_duration e) in
  match e_duration e with
  | None => (with_time e1 start (Some DAY), [], Ok tt)
  | Some d =>
      let days := td_days d in
      match mk_td (days * DAY) with
      | Ok whole =>
          let rest := d - whole in
          let days := if negb (rest =? 0) || (days =? 0) then days + 1 else days in
          match mk_td (days * DAY) with
          | Ok d' => (with_time e1 start (Some d'), [], Ok tt)
          | Raise x => (e1, [], Raise x)
          | OutOfFuel => (e1, [], OutOfFuel)
          end
      | Raise x => (e1, [], Raise x)
      | OutOfFuel => (e1, [], OutOfFuel)
      end
  end.

(** EventBase.__init__, cal.py 395-403 *)
Definition new_event_lim (uid : string) (s : spec) : res event :=
  match set_on_object s (blank uid) with
  | (e, _, Ok _) =>
      if e_allday e then
        match allday_adjust_lim e with
        | (e', _, Ok _) => Ok e'
        | (_, _, Raise x) => Raise x
        | (_, _, OutOfFuel) => OutOfFuel
        end
      else Ok e
  | (_, _, Raise x) => Raise x
  | (_, _, OutOfFuel) => OutOfFuel
  end.

(** roundtimedelta, cal.py 1093-1099 *)
Definition roundtimedelta_lim (td : Z) : res Z :=
  if 0 <? td_rest td then mk_td ((td_days td + 1) * DAY) else Ok td.

(** Period, cal.py 1072-1073 *)
Definition period_lim (dtstart minutes : Z) : res (Z * Z) :=
  let* d := mk_td (minutes * MINUTE) in Ok (dtstart, d).

(** [date + n * timedelta(1)], recurrent.py 134, and [+ (index - 1) * timedelta(7)],
    recurrent.py 458-461: the product is a timedelta of its own *)
Definition date_step_lim (o n : Z) : res Z :=
  let* _ := mk_td (n * DAY) in date_add o n.
