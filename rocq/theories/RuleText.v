(** Model of the textual form of recurrence rules (src/calcore/recurrent.py
    136-168, 199-203, 281-285, 409-419, 463-482) and of the attendee search
    (src/calcore/cal.py 1046-1069). *)
From Verif Require Import Base PyDate Recurrent CalTime Event Storage ICal System.
From Coq Require Import DecimalString Decimal.

(** '%d' of an integer, recurrent.py 141, 150, 412, 415 *)
Definition fmt_d (z : Z) : string := NilZero.string_of_int (Z.to_int z).

(** ical_weekdays, recurrent.py 465.  Python list indexing: -1 is the last. *)
Definition ical_weekdays : list string := ["MO"; "TU"; "WE"; "TH"; "FR"; "SA"; "SU"]%string.
(** [ical_weekdays[w]], recurrent.py 284, 415, 417 and 465 *)
Definition ical_weekday (w : Z) : res string :=
  let i := if w <? 0 then w + 7 else w in
  if (0 <=? i) && (i <? 7) then Ok (nth (Z.to_nat i) ical_weekdays ""%string) else Raise IndexError.

(** strftime("%Y%m%d"), recurrent.py 473: Python 2 refuses years before 1900 *)
Definition strftime_date (o : Z) : res string :=
  let '(y, m, d) := ord2ymd o in
  if y <? 1900 then Raise ValueError else Ok (pad 4 y ++ pad 2 m ++ pad 2 d)%string.

(** ical_date, recurrent.py 467-473; an object that is not a date has no strftime *)
Definition ical_date (v : dval) : res string :=
  match v with
  | VDate o => strftime_date o
  | VDatetime t => strftime_date (dt_date t)
  | VOther => Raise AttributeError
  end.

(** ical_datetime, recurrent.py 475-482; a date formats as midnight *)
Definition ical_datetime (v : dval) : res string :=
  let* d := ical_date v in
  let sec := match v with VDatetime t => dt_time t / SECOND | _ => 0 end in
  Ok (d ++ "T" ++ pad 2 (sec / 3600) ++ pad 2 (sec / 60 mod 60) ++ pad 2 (sec mod 60))%string.

(** _iCalArgs: recurrent.py 161-168 (None), 199-203 (None), 281-285, 409-419.
    [dtstart] is a datetime. *)
Definition ical_args (r : rule) (dtstart : Z) : res (option string) :=
  match r_kind r with
  | KWeekly =>
      match r_weekdays r with
      | [] => Ok None
      | l => let* names := rmap ical_weekday l in Ok (Some ("BYDAY=" ++ join "," names)%string)
      end
  | KMonthly =>
      let day := day_of (dt_date dtstart) in
      if String.eqb (r_monthly r) "monthday" then Ok (Some ("BYMONTHDAY=" ++ fmt_d day)%string)
      else if String.eqb (r_monthly r) "weekday" then
        let* n := ical_weekday (weekday (dt_date dtstart)) in
        Ok (Some ("BYDAY=" ++ fmt_d ((day - 1) / 7 + 1) ++ n)%string)
      else if String.eqb (r_monthly r) "lastweekday" then
        let* n := ical_weekday (weekday (dt_date dtstart)) in
        Ok (Some ("BYDAY=-1" ++ n)%string)
      else Raise NotImplementedError
  | _ => Ok None
  end.

(** iCalRepresentation, recurrent.py 136-159.  [if self.count] is false for
    zero; an object that is not a date is taken to be true in [elif self.until]. *)
Definition ical_representation (r : rule) (dtstart : Z) : res (list string) :=
  match ical_freq (r_kind r) with
  | None => Raise AssertionError
  | Some freq =>
      let until_args :=
        match r_until r with
        | Some u => let* t := ical_datetime u in Ok ("UNTIL=" ++ t ++ ";")%string
        | None => Ok ""%string
        end in
      let* args :=
        match r_count r with
        | Some c => if c =? 0 then until_args else Ok ("COUNT=" ++ fmt_d c ++ ";")%string
        | None => until_args
        end in
      let* extra := ical_args r dtstart in
      let args := match extra with Some x => (args ++ x ++ ";")%string | None => args end in
      let rr := ("RRULE:FREQ=" ++ freq ++ ";" ++ args ++ "INTERVAL=" ++ fmt_d (r_interval r))%string in
      match r_exceptions r with
      | [] => Ok [rr]
      | l => let* dates := rmap ical_date l in
             Ok [rr; ("EXDATE;VALUE=DATE:" ++ join "," dates)%string]
      end
  end.

(** * Attendee search *)

(** attendee.getName(), called at cal.py 1049: neither Attendee nor AttendeeBase
    (597-654) has such a method *)
Definition attendee_get_name (s : system) (i : string) : res string := Raise AttributeError.

(** attendee.getAttendeeType(), cal.py 616-617 *)
Definition attendee_type (s : system) (i : string) : res string :=
  match dget (sys_source s) i with Some (_, t) => Ok t | None => Raise KeyError end.

(** [q in name], cal.py 1049 *)
Fixpoint contains (q name : string) : bool :=
  String.prefix q name || match name with EmptyString => false | String _ r => contains q r end.

(** findByName, cal.py 1046-1055, given what getName answers.  Simplification:
    types are compared as strings, the code compares them with [is]. *)
Definition find_by_name_with (get_name : string -> res string) (s : system) (q : string) (typ : option string)
  : res (list string) :=
  rfilter (fun i =>
    let* name := get_name i in
    if negb (contains q name) then Ok false
    else match typ with
         | None => Ok true
         | Some t => let* t' := attendee_type s i in Ok (String.eqb t' t)
         end) (dkeys (sys_source s)).

(** findByName, cal.py 1046-1055 *)
Definition find_by_name (s : system) (q : string) (typ : option string) : res (list string) :=
  find_by_name_with (attendee_get_name s) s q typ.

(** getAttendeesOfType, cal.py 1057-1062, given the keys of [self.attendees] *)
Definition attendees_of_type_with (ids : res (list string)) (s : system) (typ : string) : res (list string) :=
  let* ids := ids in
  rfilter (fun i => let* t := attendee_type s i in Ok (String.eqb typ t)) ids.

(** getAttendeesOfType, cal.py 1057-1062: [self.attendees] does not exist (the
    attribute is [_attendees]) *)
Definition attendees_of_type (s : system) (typ : string) : res (list string) :=
  attendees_of_type_with (Raise AttributeError) s typ.

(** getAttendeeTypes, cal.py 1064-1065: defined without [self], so that calling
    it on a source passes an argument too many *)
Definition attendee_types (s : system) : res (list string) := Raise TypeError.
