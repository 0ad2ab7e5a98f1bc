(** Model of EventSpecification, EventBase and Event (src/calcore/cal.py 47-124,
    392-587) and of the notifications they send (events.py). *)
From Verif Require Import Base PyDate Recurrent CalTime.

(** Attendee objects are identified by their id: every use of an attendee by
    the modelled code goes through getAttendeeId (cal.py 613-614).  [None] is
    Python's None, on which getAttendeeId raises AttributeError. *)
Definition attendee := option string.

(** getAttendeeId, cal.py 613-614 *)
Definition attendee_id (a : attendee) : res string :=
  match a with Some i => Ok i | None => Raise AttributeError end.

(** Event, cal.py 392-587.  [e_categories] is a set given by a list. *)
Record event := mkEvent {
  e_uid : string;
  e_dtstart : Z;
  e_duration : option Z;
  e_title : string;
  e_description : string;
  e_location : string;
  e_status : string;
  e_recurrence : option rule;
  e_allday : bool;
  e_categories : list string;
  e_transparent : bool;
  e_access : string;
  e_document : option string;
  e_organizer : option string;         (* _organizer_id *)
  e_state : dict string;               (* _participation_state *)
  e_role : dict string }.              (* _participation_role *)

(** EventSpecification, cal.py 57-85 *)
Record spec := mkSpec {
  s_dtstart : Z;
  s_duration : option Z;
  s_title : string;
  s_description : string;
  s_location : string;
  s_status : string;
  s_recurrence : option rule;
  s_allday : bool;
  s_categories : list string;
  s_transparent : bool;
  s_access : string;
  s_document : option string;
  s_organizer : attendee;
  s_attendees : list (attendee * string * option string) }.

(** Notifications, events.py 25-56 *)
Inductive notification :=
| NCreated (uid : string)
| NModified (uid : string)
| NDeleted (uid : string)
| NParticipation (uid : string) (who : string) (old new : option string).

(** A mutator: the event after the call (effects made before an exception
    stay), the notifications sent, and the outcome. See cal.py 413-453 and 87-105. *)
Definition mut := (event * list notification * res unit)%type.

(** one statement after the other, cal.py 413-440 *)
Definition mbind (m : mut) (f : event -> mut) : mut :=
  let '(e, n, r) := m in
  match r with
  | Ok _ => let '(e', n', r') := f e in (e', n ++ n', r')
  | _ => m
  end.

(** assignment to _participation_state, cal.py 432 and 435 *)
Definition with_state (e : event) (st : dict string) : event :=
  mkEvent (e_uid e) (e_dtstart e) (e_duration e) (e_title e) (e_description e) (e_location e)
          (e_status e) (e_recurrence e) (e_allday e) (e_categories e) (e_transparent e)
          (e_access e) (e_document e) (e_organizer e) st (e_role e).
(** assignment to _participation_role, cal.py 433 and 440 *)
Definition with_role (e : event) (ro : dict string) : event :=
  mkEvent (e_uid e) (e_dtstart e) (e_duration e) (e_title e) (e_description e) (e_location e)
          (e_status e) (e_recurrence e) (e_allday e) (e_categories e) (e_transparent e)
          (e_access e) (e_document e) (e_organizer e) (e_state e) ro.
(** assignment to _organizer_id, cal.py 98 and 100 *)
Definition with_organizer (e : event) (o : option string) : event :=
  mkEvent (e_uid e) (e_dtstart e) (e_duration e) (e_title e) (e_description e) (e_location e)
          (e_status e) (e_recurrence e) (e_allday e) (e_categories e) (e_transparent e)
          (e_access e) (e_document e) o (e_state e) (e_role e).
(** assignment to dtstart and duration, cal.py 443-453 *)
Definition with_time (e : event) (t : Z) (d : option Z) : event :=
  mkEvent (e_uid e) t d (e_title e) (e_description e) (e_location e)
          (e_status e) (e_recurrence e) (e_allday e) (e_categories e) (e_transparent e)
          (e_access e) (e_document e) (e_organizer e) (e_state e) (e_role e).

(** getParticipationStatus / getParticipationRole, cal.py 479-485 *)
Definition get_status (e : event) (a : attendee) : res (option string) :=
  let* i := attendee_id a in Ok (dget (e_state e) i).
(** getParticipationRole, cal.py 483-485 *)
Definition get_role (e : event) (a : attendee) : res (option string) :=
  let* i := attendee_id a in Ok (dget (e_role e) i).

(** hasAttendee, cal.py 476-477 *)
Definition has_attendee (e : event) (a : attendee) : res bool :=
  let* s := get_status e a in Ok (match s with Some _ => true | None => false end).

(** getOrganizerId, inCategory: cal.py 457-461 *)
Definition get_organizer_id (e : event) : option string := e_organizer e.
(** inCategory, cal.py 460-461 *)
Definition in_category (e : event) (c : string) : bool := str_in c (e_categories e).

(** the statuses setParticipationStatus accepts, cal.py 420-421 *)
Definition statuses : list string :=
  ["NEEDS-ACTION"; "ACCEPTED"; "DECLINED"; "TENTATIVE"; "DELEGATED"]%string.
(** the roles setParticipationRole accepts, cal.py 438-439 *)
Definition roles : list string :=
  ["CHAIR"; "REQ-PARTICIPANT"; "OPT-PARTICIPANT"; "NON-PARTICIPANT"]%string.

(** _setParticipationStatus, cal.py 428-435: with None both dictionaries lose
    the key, the first deletion staying in effect if the second fails. *)
Definition set_status_raw (e : event) (a : attendee) (st : option string) : mut :=
  match attendee_id a with
  | Ok i =>
      match st with
      | Some s => (with_state e (dset (e_state e) i s), [], Ok tt)
      | None =>
          match ddel (e_state e) i with
          | Ok st' =>
              let e1 := with_state e st' in
              match ddel (e_role e1) i with
              | Ok ro' => (with_role e1 ro', [], Ok tt)
              | Raise x => (e1, [], Raise x)
              | OutOfFuel => (e1, [], OutOfFuel)
              end
          | Raise x => (e, [], Raise x)
          | OutOfFuel => (e, [], OutOfFuel)
          end
      end
  | Raise x => (e, [], Raise x)
  | OutOfFuel => (e, [], OutOfFuel)
  end.

(** setParticipationStatus, cal.py 419-426 *)
Definition set_status (e : event) (a : attendee) (st : option string) : mut :=
  if match st with None => true | Some s => str_in s statuses end then
    match get_status e a with
    | Ok old =>
        if opt_str_eqb old st then (e, [], Ok tt)
        else mbind (set_status_raw e a st)
                   (fun e' => (e', match a with
                                   | Some i => [NParticipation (e_uid e') i old st]
                                   | None => []
                                   end, Ok tt))
    | Raise x => (e, [], Raise x)
    | OutOfFuel => (e, [], OutOfFuel)
    end
  else (e, [], Raise AssertionError).

(** setParticipationRole, cal.py 437-440 *)
Definition set_role (e : event) (a : attendee) (role : string) : mut :=
  if str_in role roles then
    match attendee_id a with
    | Ok i => (with_role e (dset (e_role e) i role), [], Ok tt)
    | Raise x => (e, [], Raise x)
    | OutOfFuel => (e, [], OutOfFuel)
    end
  else (e, [], Raise AssertionError).

(** invite, cal.py 413-417 *)
Fixpoint invite (e : event) (l : list attendee) : mut :=
  match l with
  | [] => (e, [], Ok tt)
  | a :: r =>
      match get_status e a with
      | Ok None =>
          mbind (mbind (set_status e a (Some "NEEDS-ACTION"%string))
                       (fun e1 => set_role e1 a "REQ-PARTICIPANT"))
                (fun e2 => invite e2 r)
      | Ok (Some _) => invite e r
      | Raise x => (e, [], Raise x)
      | OutOfFuel => (e, [], OutOfFuel)
      end
  end.

(** getAttendeeIds, cal.py 463-474: [self._participation_role[...]] raises
    KeyError for an attendee without a role. *)
Definition get_attendee_ids (e : event) (status role : option string) : res (list string) :=
  let* l := rfilter (fun kv : string * string =>
    if match status with Some s => negb (String.eqb s (snd kv)) | None => false end then Ok false
    else match role with
         | None => Ok true
         | Some ro =>
             match dget (e_role e) (fst kv) with
             | Some ro' => Ok (String.eqb ro ro')
             | None => Raise KeyError
             end
         end) (e_state e) in
  Ok (map fst l).

(** alldayAdjust, cal.py 442-453; the limit of [timedelta] is left to Limits.v *)
Definition allday_adjust (e : event) : event :=
  let start := combine (dt_date (e_dtstart e)) 0 in
  match e_duration e with
  | None => with_time e start (Some DAY)
  | Some d =>
      let days := td_days d in
      let rest := d - days * DAY in
      let days := if negb (rest =? 0) || (days =? 0) then days + 1 else days in
      with_time e start (Some (days * DAY))
  end.

(** the attribute loop of setOnObject, cal.py 90-94 (all attributes except
    organizer and attendees; assigning an equal value is skipped, which is the
    same as assigning it for these immutable values) *)
Definition set_attrs (s : spec) (e : event) : event :=
  mkEvent (e_uid e) (s_dtstart s) (s_duration s) (s_title s) (s_description s) (s_location s)
          (s_status s) (s_recurrence s) (s_allday s) (s_categories s) (s_transparent s)
          (s_access s) (s_document s) (e_organizer e) (e_state e) (e_role e).

(** the attendee loop of setOnObject, cal.py 102-105 *)
Fixpoint set_attendees (e : event) (l : list (attendee * string * option string)) : mut :=
  match l with
  | [] => (e, [], Ok tt)
  | (a, role, st) :: r =>
      mbind (mbind (set_role e a role) (fun e1 => set_status_raw e1 a st))
            (fun e2 => set_attendees e2 r)
  end.

(** setOnObject, cal.py 87-105 *)
Definition set_on_object (s : spec) (e : event) : mut :=
  let e := set_attrs s e in
  let m :=
    match s_organizer s with
    | Some i =>
        mbind (mbind (set_status_raw e (Some i) (Some "ACCEPTED"%string))
                     (fun e1 => set_role e1 (Some i) "REQ-PARTICIPANT"))
              (fun e2 => (with_organizer e2 (Some i), [], Ok tt))
    | None => (with_organizer e None, [], Ok tt)
    end in
  mbind m (fun e3 => set_attendees e3 (s_attendees s)).

(** [!=] on recurrence attributes, cal.py 112 *)
Definition opt_rule_eqb (a b : option rule) : bool :=
  match a, b with
  | Some x, Some y => rule_eq x y
  | None, None => true
  | _, _ => false
  end.

(** equality of sets of strings, [!=] on categories, cal.py 112 *)
Definition set_eqb (a b : list string) : bool :=
  forallb (fun x => str_in x b) a && forallb (fun x => str_in x a) b.

(** the attribute comparison of willModify, cal.py 110-113 *)
Definition attrs_differ (s : spec) (e : event) : bool :=
  negb ((e_dtstart e =? s_dtstart s)
        && opt_eqb Z.eqb (e_duration e) (s_duration s)
        && String.eqb (e_title e) (s_title s)
        && String.eqb (e_description e) (s_description s)
        && String.eqb (e_location e) (s_location s)
        && String.eqb (e_status e) (s_status s)
        && opt_rule_eqb (e_recurrence e) (s_recurrence s)
        && Bool.eqb (e_allday e) (s_allday s)
        && set_eqb (e_categories e) (s_categories s)
        && Bool.eqb (e_transparent e) (s_transparent s)
        && String.eqb (e_access e) (s_access s)
        && opt_str_eqb (e_document e) (s_document s)).

(** the attendee loop of willModify, cal.py 120-124; the role is compared with a
    constant there *)
Fixpoint attendees_differ (e : event) (l : list (attendee * string * option string)) : res bool :=
  match l with
  | [] => Ok false
  | (a, role, st) :: r =>
      let* cur := get_status e a in
      if negb (opt_str_eqb cur st) then Ok true
      else
        let* ro := get_role e a in
        if negb (opt_str_eqb ro (Some "REQ-PARTICIPANT"%string)) then Ok true
        else attendees_differ e r
  end.

(** willModify, cal.py 107-124.  The condition of 114-117 parses as
    [(A and B) or C or D]; with no organizer C calls None.getAttendeeId(). *)
Definition will_modify (s : spec) (e : event) : res bool :=
  if attrs_differ s e then Ok true
  else if match s_organizer s with
          | Some i => negb (opt_str_eqb (e_organizer e) (Some i))
          | None => false
          end then Ok true
  else
    let* st := get_status e (s_organizer s) in
    if negb (opt_str_eqb st (Some "ACCEPTED"%string)) then Ok true
    else
      let* ro := get_role e (s_organizer s) in
      if negb (opt_str_eqb ro (Some "REQ-PARTICIPANT"%string)) then Ok true
      else attendees_differ e (s_attendees s).

(** EventBase.__init__, cal.py 395-403 (Event starts with empty dictionaries,
    582-587) *)
Definition blank (uid : string) : event :=
  mkEvent uid 0 None "" "" "" "" None false [] false "" None None [] [].

(** EventBase.__init__, cal.py 395-403 *)
Definition new_event (uid : string) (s : spec) : res event :=
  match set_on_object s (blank uid) with
  | (e, _, Ok _) => Ok (if e_allday e then allday_adjust e else e)
  | (_, _, Raise x) => Raise x
  | (_, _, OutOfFuel) => OutOfFuel
  end.

(** cmp of two (datetime, string) tuples, cal.py 494-496 *)
Definition cmp_pair (a b : Z * string) : comparison :=
  match Z.compare (fst a) (fst b) with Eq => String.compare (snd a) (snd b) | c => c end.

(** __cmp__, cal.py 490-496: both tuples carry self.unique_id.  [other] is
    another event; result sign as in Python's cmp. *)
Definition event_cmp (a b : event) : comparison :=
  cmp_pair (e_dtstart a, e_uid a) (e_dtstart b, e_uid a).

(** __hash__, cal.py 487-488, up to the (unmodelled) hash of strings *)
Definition event_hash_key (e : event) : string := e_uid e.

(** the occurrences of the dates yielded by the rule, cal.py 508-514 *)
Definition expand_dates (e : event) (p : period) (l : list Z) : res (list (occurrence event)) :=
  rconcat_map (fun d =>
    let t := combine d (dt_time (e_dtstart e)) in
    let* b := in_period t (e_duration e) p in
    Ok (if b then [mkOcc t (e_duration e) e] else [])) l.

(** expand, cal.py 498-515.  [fuel] bounds the unbounded loops of the rule. *)
Definition expand (fuel : nat) (e : event) (p : period) : res (list (occurrence event)) :=
  match e_recurrence e with
  | None =>
      let* b := in_period (e_dtstart e) (e_duration e) p in
      Ok (if b then [mkOcc (e_dtstart e) (e_duration e) e] else [])
  | Some r =>
      match snd p with
      | None => Raise AttributeError
      | Some pe =>
          let (l, f) := apply fuel r (e_dtstart e) (Some (VDate (dt_date pe))) in
          let* out := expand_dates e p l in
          match f with
          | GStop => Ok out
          | GRaise x => Raise x
          | GMore => OutOfFuel
          end
      end
  end.
