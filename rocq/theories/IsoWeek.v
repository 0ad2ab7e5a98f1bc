(** Model of src/calcore/isoweek.py.  Results are midnights, represented by
    their day. *)
From Verif Require Import Base PyDate.

(** getWeeksInYear, isoweek.py 25-31 *)
Definition weeks_in_year (year : Z) : res Z :=
  let* jan1 := py_date year 1 1 in
  let* dec31 := py_date year 12 31 in
  if (isoweekday jan1 =? 4) || (isoweekday dec31 =? 4) then Ok 53 else Ok 52.

(** weeknr2datetime, isoweek.py 33-57 *)
Definition weeknr2date (year weeknr : Z) (wd : option Z) : res Z :=
  let* jan4 := py_date year 1 4 in
  let '(_, iso_weeknr, _) := isocalendar jan4 in
  let* week1 := if iso_weeknr =? 1 then Ok jan4 else date_add jan4 7 in
  let* week1 := date_add week1 (- weekday week1) in
  let* result := date_add week1 (7 * (weeknr - 1)) in
  match wd with
  | None => Ok result
  | Some w => date_add result (w - 1)
  end.
