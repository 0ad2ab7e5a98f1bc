(** Model of the iCalendar side of the calendar: what is read from and written
    to icalendar components (src/calcore/cal.py 517-572, 748-899, 1101-1107).

    The icalendar library (parsing and printing of text) is not modelled: a
    component is a record of the values its [decoded] method returns. *)
From Verif Require Import Base PyDate Recurrent CalTime Event.

(** A decoded DTSTART or DTEND: a date, a datetime without time zone, or a
    datetime with a time zone (its wall-clock time and its distance from UTC). See cal.py 803-804, 820-829. *)
Inductive ical_time := IDate (d : Z) | IFloat (t : Z) | IAware (t offset : Z).

(** A decoded RRULE: each part is absent or a list of values. See cal.py 842, 848, 855, 864-872. *)
Record rrule := mkRR {
  rr_freq : option (list string);
  rr_interval : option (list Z);
  rr_count : option (list Z);
  rr_until : option (list dval);
  rr_byday : option (list string) }.

(** A VEVENT component.  [v_attendees] are the calendar addresses with their
    PARTSTAT and ROLE parameters; [v_categories] is what _getCategories
    (cal.py 875-890) extracts, by whichever of its three branches. *)
Record vevent := mkV {
  v_uid : option string;
  v_dtstart : option ical_time;
  v_dtend : option ical_time;
  v_duration : option Z;
  v_summary : option string;
  v_description : option string;
  v_location : option string;
  v_status : option string;
  v_organizer : option string;
  v_attendees : list (string * option string * option string);
  v_categories : list string;
  v_transp : option string;
  v_class : option string;
  v_attach : option string;
  v_rrule : option rrule }.

(** [component.decoded(name, default)], cal.py 757-760, 780-781, 786-788 *)
Definition dflt {A} (o : option A) (d : A) : A := match o with Some x => x | None => d end.

(** combine(d, time(0, 0)) for a date, float_datetime (cal.py 1101-1107) for a
    datetime.  [tz] is the local time zone: the distance of local time from UTC
    at a given UTC time. *)
Definition float_time (tz : Z -> Z) (v : ical_time) : res Z :=
  match v with
  | IDate d => Ok (combine d 0)
  | IFloat t => float_datetime tz t None
  | IAware t off => float_datetime tz t (Some off)
  end.

(** _getDtstartDuration, cal.py 802-839.  The branch at 833-834 is dead:
    [dtstart] is a datetime by then. *)
Definition dtstart_duration (tz : Z -> Z) (v : vevent) : res (Z * Z * bool) :=
  match v_dtstart v with
  | None => Raise AssertionError
  | Some s0 =>
      let* s := float_time tz s0 in
      let allday := match s0 with IDate _ => true | _ => false end in
      match v_dtend v with
      | Some e0 => let* e := float_time tz e0 in Ok (s, e - s, allday)
      | None =>
          match v_duration v with
          | Some d => Ok (s, d, allday)
          | None => Ok (s, 0, allday)
          end
      end
  end.

(** [l[0]], cal.py 842, 866, 869, 872 *)
Definition head_of {A} (l : list A) : res A :=
  match l with x :: _ => Ok x | [] => Raise IndexError end.

(** ical_weekdays.index(day), cal.py 656 and 852 *)
Definition weekday_index (d : string) : res Z :=
  if String.eqb d "MO" then Ok 0 else if String.eqb d "TU" then Ok 1
  else if String.eqb d "WE" then Ok 2 else if String.eqb d "TH" then Ok 3
  else if String.eqb d "FR" then Ok 4 else if String.eqb d "SA" then Ok 5
  else if String.eqb d "SU" then Ok 6 else Raise ValueError.

(** what goes wrong when no rule was built because of an unknown frequency: the
    first use of the unset variable, cal.py 864-873; the right-hand side of an
    assignment is evaluated before the variable is looked up *)
Definition no_rule (rr : rrule) : exn :=
  match rr_interval rr, rr_count rr, rr_until rr with
  | Some [], _, _ | None, Some [], _ | None, None, Some [] => IndexError
  | _, _, _ => UnboundLocalError
  end.

(** the rule object built before interval, count and until are set, cal.py 842-863 *)
Definition base_rule (rr : rrule) : res rule :=
  match rr_freq rr with
  | None => Raise KeyError
  | Some l =>
      let* freq := head_of l in
      if String.eqb freq "DAILY" then mk_rule KDaily 1 None None [] [] "monthday"
      else if String.eqb freq "YEARLY" then mk_rule KYearly 1 None None [] [] "monthday"
      else if String.eqb freq "WEEKLY" then
        let* days := match rr_byday rr with None => Ok [] | Some l => rmap weekday_index l end in
        mk_rule KWeekly 1 None None [] days "monthday"
      else if String.eqb freq "MONTHLY" then
        let* m := match rr_byday rr with
                  | None => Ok "monthday"%string
                  | Some l =>
                      let* d := head_of l in
                      match d with
                      | String c _ => Ok (if Ascii.eqb c "-" then "lastweekday" else "weekday")%string
                      | EmptyString => Raise IndexError
                      end
                  end in
        mk_rule KMonthly 1 None None [] [] m
      else Raise (no_rule rr)
  end.

(** [x[0]] when x is present, cal.py 864-872 *)
Definition opt_head {A} (o : option (list A)) : res (option A) :=
  match o with None => Ok None | Some l => let* x := head_of l in Ok (Some x) end.

(** _getRecurrenceRule, cal.py 841-873: the attributes are assigned without
    validation *)
Definition import_rule (rr : rrule) : res rule :=
  let* r := base_rule rr in
  let* i := opt_head (rr_interval rr) in
  let* c := opt_head (rr_count rr) in
  let* u := opt_head (rr_until rr) in
  Ok (mkRule (r_kind r) (dflt i (r_interval r)) (match c with Some _ => c | None => r_count r end)
             (match u with Some _ => u | None => r_until r end) (r_exceptions r)
             (r_weekdays r) (r_monthly r)).

(** _importEventSpecification, cal.py 748-794.  [known i] tells whether the
    attendee source knows the address [i] (getAttendeeFromSpec, 1067-1069);
    [default] is _getDefaultOrganizer(). *)
Definition import_spec (tz : Z -> Z) (known : string -> bool) (default : res attendee)
           (v : vevent) : res spec :=
  let find (i : string) : attendee := if known i then Some i else None in
  let* sda := dtstart_duration tz v in
  let '(s, d, allday) := sda in
  let* organizer :=
    match match v_organizer v with Some i => find i | None => None end with
    | Some i => Ok (Some i)
    | None => default
    end in
  let attendees := map (fun a => let '(i, partstat, role) := a in
      (find i, dflt role "REQ-PARTICIPANT"%string, Some (dflt partstat "NEEDS-ACTION"%string)))
      (v_attendees v) in
  let* rec := match v_rrule v with
              | None => Ok None
              | Some rr => let* r := import_rule rr in Ok (Some r)
              end in
  Ok (mkSpec s (Some d) (dflt (v_summary v) ""%string) (dflt (v_description v) ""%string)
             (dflt (v_location v) ""%string) (dflt (v_status v) "TENTATIVE"%string) rec allday
             (v_categories v) (String.eqb (dflt (v_transp v) "OPAQUE"%string) "TRANSPARENT")
             (dflt (v_class v) "PUBLIC"%string) (v_attach v) organizer attendees).

(** ical_freq of each rule class: recurrent.py 52, 185, 192, 212, 297 *)
Definition ical_freq (k : kind) : option string :=
  match k with
  | KDaily => Some "DAILY"%string
  | KYearly => Some "YEARLY"%string
  | KWeekly => Some "WEEKLY"%string
  | KMonthly => Some "MONTHLY"%string
  | KBasic | KNo => None
  end.

(** the vRecur value exported, cal.py 543-550 *)
Definition export_rule (r : rule) : rrule :=
  mkRR (match ical_freq (r_kind r) with Some f => Some [f] | None => None end)
       (Some [r_interval r])
       (match r_count r with Some c => Some [c] | None => None end)
       (match r_until r with Some u => Some [u] | None => None end)
       None.

(** [if self.x:] for a string, cal.py 563-570 *)
Definition truthy (s : string) : option string :=
  match s with EmptyString => None | _ => Some s end.

(** EventBase.export, cal.py 517-572.  [self.dtstart + self.duration] raises
    TypeError when there is no duration. *)
Definition export_event (private : bool) (e : event) : res vevent :=
  let* dtend := end_of (e_dtstart e) (e_duration e) in
  let t x := if e_allday e then IDate (dt_date x) else IFloat x in
  let rr := match e_recurrence e with Some r => Some (export_rule r) | None => None end in
  let transp := Some (if e_transparent e then "TRANSPARENT" else "OPAQUE")%string in
  Ok (if private then
        mkV (Some (e_uid e)) (Some (t (e_dtstart e))) (Some (t dtend)) None
            (Some "Private Event"%string) None None None None [] []
            transp (Some (e_access e)) None rr
      else
        mkV (Some (e_uid e)) (Some (t (e_dtstart e))) (Some (t dtend)) None
            (Some (e_title e)) (truthy (e_description e)) (truthy (e_location e))
            (Some (e_status e)) None [] (e_categories e)
            transp (Some (e_access e))
            (match e_document e with Some d => truthy d | None => None end) rr).

(** Printing and parsing back: a datetime is written with second precision.
    Every other value is taken to survive. The text itself is written at cal.py 983 and read at 708. *)
Definition SECOND : Z := 1000000.
(** microseconds lost by cal.py 983 followed by 708 *)
Definition to_second (t : Z) : Z := t / SECOND * SECOND.
(** a DTSTART or DTEND (cal.py 527-542) after 983 and 708 *)
Definition wire_time (v : ical_time) : ical_time :=
  match v with
  | IDate d => IDate d
  | IFloat t => IFloat (to_second t)
  | IAware t off => IAware (to_second t) off
  end.
(** an UNTIL (cal.py 549) after 983 and 708 *)
Definition wire_until (v : dval) : dval :=
  match v with VDatetime t => VDatetime (to_second t) | _ => v end.
(** an RRULE (cal.py 543-550) after 983 and 708 *)
Definition wire_rule (rr : rrule) : rrule :=
  mkRR (rr_freq rr) (rr_interval rr) (rr_count rr)
       (match rr_until rr with Some l => Some (map wire_until l) | None => None end) (rr_byday rr).
(** a component (cal.py 517-572) after 983 and 708 *)
Definition wire (v : vevent) : vevent :=
  mkV (v_uid v) (match v_dtstart v with Some t => Some (wire_time t) | None => None end)
      (match v_dtend v with Some t => Some (wire_time t) | None => None end)
      (v_duration v) (v_summary v) (v_description v) (v_location v) (v_status v) (v_organizer v)
      (v_attendees v) (v_categories v) (v_transp v) (v_class v) (v_attach v)
      (match v_rrule v with Some rr => Some (wire_rule rr) | None => None end).

(** * Line endings *)
(** cal.py 894 *)
Definition LF : ascii := "010"%char.
(** cal.py 896 *)
Definition CR : ascii := "013"%char.

(** text.find('\n'), cal.py 894 *)
Fixpoint find_lf (s : string) : option nat :=
  match s with
  | EmptyString => None
  | String c r => if Ascii.eqb c LF then Some O
                  else match find_lf r with Some n => Some (S n) | None => None end
  end.

(** text.split('\n'), cal.py 897 *)
Fixpoint split_lf (s : string) : list string :=
  match s with
  | EmptyString => [EmptyString]
  | String c r =>
      if Ascii.eqb c LF then EmptyString :: split_lf r
      else match split_lf r with
           | x :: xs => String c x :: xs
           | [] => [String c EmptyString]      (* split never returns [] *)
           end
  end.

(** sep.join(lines), cal.py 898 and recurrent.py 157, 284 *)
Fixpoint join (sep : string) (l : list string) : string :=
  match l with
  | [] => EmptyString
  | [x] => x
  | x :: r => (x ++ sep ++ join sep r)%string
  end.

(** cal.py 898 *)
Definition CRLF : string := String CR (String LF EmptyString).

(** _repairText, cal.py 892-899 *)
Definition repair_text (text : string) : string :=
  match find_lf text with
  | Some (S n) =>
      match String.get n text with
      | Some c => if Ascii.eqb c CR then text else join CRLF (split_lf text)
      | None => text
      end
  | _ => text
  end.
