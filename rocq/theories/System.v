(** The whole system as a state machine: one storage behind its storage
    manager, an attendee source, any number of calendars, and every event object
    created so far (src/calcore/cal.py 127-162, 250-285, 597-617, 658-799,
    1006-1069).

    A state change is an operation of the API.  A call that raises leaves behind
    whatever it did before raising; the caller is assumed to catch the exception
    and go on.  Notifications (events.py) are the output of a step. *)
From Verif Require Import Base PyDate Recurrent CalTime Event Storage ICal.
From Coq Require Import DecimalString Decimal.

(** An event object is a position in [sys_heap]: it exists whether or not the
    storage (still) refers to it.  Attendees are known by id; the source keeps
    name and type.  A calendar is its set of attendee ids. See cal.py 255-258, 647-651, 663-664, 995-998, 1013-1015. *)
Record system := mkSys {
  sys_heap : list event;
  sys_store : dict nat;
  sys_source : dict (string * string);
  sys_cals : list (dict unit) }.

(** What does not change: the storage's id and host name (cal.py 255-258) and
    the local time zone. *)
Record config := mkConfig {
  cf_storage_id : string;
  cf_host : string;
  cf_tz : Z -> Z }.

(** the freshly constructed storage and source, cal.py 255-258 and 1013-1015 *)
Definition init : system := mkSys [] [] [] [].

(** A step: state after, notifications sent, outcome. A call of cal.py 139-150, 413-453, 671-675, 690-746, 1019-1031. *)
Definition smut (A : Type) := (system * list notification * res A)%type.

(** return, as at cal.py 274 *)
Definition sret {A} (s : system) (a : A) : smut A := (s, [], Ok a).
(** raise, as at cal.py 277, 675, 716 *)
Definition sfail {A} (s : system) (e : exn) : smut A := (s, [], Raise e).

(** lift a computation without effects, a call without effects, as at cal.py 704 and 738 *)
Definition slift {A} (s : system) (r : res A) : smut A := (s, [], r).

(** one statement after the other, as at cal.py 737-741 *)
Definition sbind {A B} (m : smut A) (f : system -> A -> smut B) : smut B :=
  let '(s, n, r) := m in
  match r with
  | Ok a => let '(s', n', r') := f s a in (s', n ++ n', r')
  | Raise e => (s, n, Raise e)
  | OutOfFuel => (s, n, OutOfFuel)
  end.

(** assignment to an attribute of an event object, cal.py 87-105 and 413-453 *)
Definition with_heap (s : system) (h : list event) : system :=
  mkSys h (sys_store s) (sys_source s) (sys_cals s).
(** assignment to self._events, cal.py 273 and 277 *)
Definition with_store (s : system) (d : dict nat) : system :=
  mkSys (sys_heap s) d (sys_source s) (sys_cals s).
(** assignment to the source's _attendees, cal.py 1023 and 1030 *)
Definition with_source (s : system) (d : dict (string * string)) : system :=
  mkSys (sys_heap s) (sys_store s) d (sys_cals s).
(** assignment to a calendar's _attendees, cal.py 672 and 675 *)
Definition with_cals (s : system) (l : list (dict unit)) : system :=
  mkSys (sys_heap s) (sys_store s) (sys_source s) l.

(** an object changed in place, cal.py 87-105, 413-453, 672, 675 *)
Fixpoint replace_nth {A} (n : nat) (l : list A) (x : A) : list A :=
  match l, n with
  | [], _ => []
  | _ :: r, O => x :: r
  | y :: r, S n' => y :: replace_nth n' r x
  end.

(** the object at a position; every reference the program holds is valid, cal.py 273, 285, 306 *)
Definition obj (s : system) (r : nat) : event := nth r (sys_heap s) (blank "").

(** self._events.values(), cal.py 306 *)
Definition stored (s : system) : list event := map (fun kv => obj s (snd kv)) (sys_store s).

(** * The storage *)

(** StorageBase.getEvent, cal.py 284-285 (and 154-155, 903-907) *)
Definition get_event (s : system) (uid : string) : res nat :=
  match dget (sys_store s) uid with Some r => Ok r | None => Raise KeyError end.

(** hasEvent, cal.py 157-162 *)
Definition has_event (s : system) (uid : string) : bool :=
  match get_event s uid with Ok _ => true | _ => false end.

(** '%.4d', '%.2d': [w] decimal digits, cal.py 1120 *)
Fixpoint pad (w : nat) (n : Z) : string :=
  match w with
  | O => ""
  | S w' => (pad w' (n / 10) ++ String (ascii_of_nat (48 + Z.to_nat (n mod 10))) "")%string
  end.

(** iso8601, cal.py 1119-1121; a datetime is in years 1 to 9999 *)
Definition iso8601 (t : Z) : string :=
  let '(y, m, d) := ord2ymd (dt_date t) in
  let sec := dt_time t / SECOND in
  (pad 4 y ++ pad 2 m ++ pad 2 d ++ "T"
   ++ pad 2 (sec / 3600) ++ pad 2 (sec / 60 mod 60) ++ pad 2 (sec mod 60))%string.

(** '%s' of a length, cal.py 270-271 *)
Definition dec (n : nat) : string := NilEmpty.string_of_uint (Nat.to_uint n).

(** addrspec_unique_id('%s-%s' % (storage_id, len(events)), hostname),
    cal.py 269-271 and 1113-1117; [now] is what datetime.now() returns *)
Definition generated_id (cf : config) (now : Z) (n : nat) : string :=
  (iso8601 now ++ "-" ++ cf_storage_id cf ++ "-" ++ dec n ++ "@" ++ cf_host cf)%string.

(** StorageBase.createEvent and createEventFromSpecification of the manager,
    cal.py 267-274 and 143-146.  Nothing is stored if the event's constructor
    raises. *)
Definition create_event (cf : config) (s : system) (uid : option string) (sp : spec) (now : Z)
  : smut nat :=
  let uid := match uid with
             | Some u => u
             | None => generated_id cf now (List.length (sys_store s))
             end in
  match new_event uid sp with
  | Ok e =>
      let r := List.length (sys_heap s) in
      (mkSys (sys_heap s ++ [e]) (dset (sys_store s) uid r) (sys_source s) (sys_cals s),
       [NCreated uid], Ok r)
  | Raise x => sfail s x
  | OutOfFuel => (s, [], OutOfFuel)
  end.

(** deleteEvent, cal.py 148-150 and 276-277: by the object's unique id *)
Definition delete_event (s : system) (r : nat) : smut unit :=
  match ddel (sys_store s) (e_uid (obj s r)) with
  | Ok d => (with_store s d, [NDeleted (e_uid (obj s r))], Ok tt)
  | Raise x => sfail s x
  | OutOfFuel => (s, [], OutOfFuel)
  end.

(** a mutator of an event object, cal.py 413-453 and 87-105 *)
Definition on_event (s : system) (r : nat) (f : event -> mut) : smut unit :=
  let '(e, n, x) := f (obj s r) in (with_heap s (replace_nth r (sys_heap s) e), n, x).

(** * Attendees and calendars *)

(** createIndividual / createRoom, cal.py 1019-1031 *)
Definition create_attendee (s : system) (i name typ : string) : system :=
  with_source s (dset (sys_source s) i (name, typ)).

(** SimpleAttendeeSource.getAttendee, cal.py 1035-1036 *)
Definition source_get (s : system) (i : string) : res attendee :=
  match dget (sys_source s) i with Some _ => Ok (Some i) | None => Raise KeyError end.

(** getAttendeeFromSpec, cal.py 1067-1069: is the address known? *)
Definition source_knows (s : system) (i : string) : bool :=
  match dget (sys_source s) i with Some _ => true | None => false end.

(** self._attendees of a calendar, cal.py 664-667 *)
Definition cal (s : system) (c : nat) : dict unit := nth c (sys_cals s) [].

(** addAttendee, cal.py 671-672 *)
Definition add_attendee (s : system) (c : nat) (a : attendee) : smut unit :=
  match attendee_id a with
  | Ok i => sret (with_cals s (replace_nth c (sys_cals s) (dset (cal s c) i tt))) tt
  | Raise x => sfail s x
  | OutOfFuel => (s, [], OutOfFuel)
  end.

(** removeAttendee, cal.py 674-675 *)
Definition remove_attendee (s : system) (c : nat) (a : attendee) : smut unit :=
  match (let* i := attendee_id a in ddel (cal s c) i) with
  | Ok d => sret (with_cals s (replace_nth c (sys_cals s) d)) tt
  | Raise x => sfail s x
  | OutOfFuel => (s, [], OutOfFuel)
  end.

(** getAttendees, cal.py 967-972 *)
Definition cal_attendees (s : system) (c : nat) : res (list attendee) :=
  rmap (source_get s) (dkeys (cal s c)).

(** getMainAttendee, cal.py 677-688: the first key of the dictionary *)
Definition main_attendee (s : system) (c : nat) : res attendee :=
  match dkeys (cal s c) with
  | [] => Ok None
  | i :: _ => source_get s i
  end.

(** CalendarBase.getEvents, cal.py 912-919 *)
Definition cal_events (s : system) (c : nat) (p : period) (cr : option criteria) : res (list event) :=
  let* atts := cal_attendees s c in calendar_events (stored s) atts p cr.

(** * Import *)

(** _importExistingEvent, cal.py 736-741 *)
Definition import_existing (cf : config) (s : system) (c : nat) (uid : string) (v : vevent)
  : smut unit :=
  sbind (slift s (get_event s uid)) (fun s r =>
  sbind (slift s (import_spec (cf_tz cf) (source_knows s) (main_attendee s c) v)) (fun s sp =>
  sbind (slift s (will_modify sp (obj s r))) (fun s b =>
  if b : bool then
    sbind (on_event s r (set_on_object sp)) (fun s _ => (s, [NModified (e_uid (obj s r))], Ok tt))
  else sret s tt))).

(** _importNewEvent, cal.py 743-746 *)
Definition import_new (cf : config) (s : system) (c : nat) (uid : string) (v : vevent) : smut unit :=
  sbind (slift s (import_spec (cf_tz cf) (source_knows s) (main_attendee s c) v)) (fun s sp =>
  sbind (create_event cf s (Some uid) sp 0) (fun s _ => sret s tt)).

(** body of the loop of import_, cal.py 713-728; [e.decoded('UID')] raises
    KeyError when there is none *)
Definition import_one (cf : config) (s : system) (c : nat) (known : list string) (v : vevent)
  : smut string :=
  match v_uid v with
  | None => sfail s KeyError
  | Some uid =>
      if str_in uid known then
        sbind (import_existing cf s c uid v) (fun s _ => sret s uid)
      else if has_event s uid then sret s uid
      else sbind (import_new cf s c uid v) (fun s _ => sret s uid)
  end.

(** the [for e in ical.walk(...)] loop, cal.py 711-728 *)
Fixpoint import_loop (cf : config) (s : system) (c : nat) (known : list string) (l : list vevent)
  : smut (list string) :=
  match l with
  | [] => sret s []
  | v :: r =>
      sbind (import_one cf s c known v) (fun s uid =>
      sbind (import_loop cf s c known r) (fun s uids => sret s (uid :: uids)))
  end.

(** the loop that deletes, cal.py 732-734 *)
Fixpoint delete_loop (s : system) (uids : list string) : smut unit :=
  match uids with
  | [] => sret s tt
  | u :: r =>
      sbind (slift s (get_event s u)) (fun s ref =>
      sbind (delete_event s ref) (fun s _ => delete_loop s r))
  end.

(** import_, cal.py 690-734.  [parsed] is what parsing the text gives: the VEVENT
    components, nothing at all, or an exception.  Sets are lists without repetition; the order in which [removed_uids] is visited is
    that of the list. *)
Definition import_cal (cf : config) (s : system) (c : nat)
           (parsed : res (option (list vevent))) (p : period) (cr : option criteria) (synchronize : bool) : smut unit :=
  sbind (slift s (cal_events s c p cr)) (fun s events =>
  let known := nodup string_dec (map e_uid events) in
  sbind (slift s parsed) (fun s ov =>
  match ov with
  | None => sret s tt
  | Some vs =>
      sbind (import_loop cf s c known vs) (fun s ical =>
      if synchronize then delete_loop s (filter (fun u => negb (str_in u ical)) known)
      else sret s tt)
  end)).

(** export, cal.py 974-985: the VEVENT components, in order *)
Definition export_cal (s : system) (c : nat) (p : period) (cr : option criteria) : res (list vevent) :=
  let* events := cal_events s c p cr in rmap (export_event false) events.

(** * Operations *)
(** cal.py 87-105, 139-150, 413-453, 607-609, 671-675, 690-734, 994-998, 1019-1031 *)
Inductive op :=
| OCreate (uid : option string) (sp : spec) (now : Z)     (* manager.createEvent *)
| OAttendeeCreate (i : string) (sp : spec) (now : Z)      (* attendee.createEvent *)
| ODelete (r : nat)                                       (* manager.deleteEvent *)
| OInvite (r : nat) (l : list attendee)
| OSetStatus (r : nat) (a : attendee) (st : option string)
| OSetRole (r : nat) (a : attendee) (role : string)
| OAdjust (r : nat)                                       (* event.alldayAdjust *)
| OAssign (r : nat) (sp : spec)                           (* assigning public attributes *)
| OSpecify (r : nat) (sp : spec)                          (* spec.setOnObject(event) *)
| OAttendee (i name typ : string)                         (* source.createIndividual/Room *)
| OCalendar                                               (* a new calendar *)
| OAddAttendee (c : nat) (a : attendee)
| ORemoveAttendee (c : nat) (a : attendee)
| OImport (c : nat) (parsed : res (option (list vevent))) (p : period) (cr : option criteria) (sync : bool).

(** the caller ignores the value returned by createEvent, cal.py 139-146 and 607-609 *)
Definition drop {A} (m : smut A) : smut unit :=
  let '(s, n, r) := m in
  (s, n, match r with Ok _ => Ok tt | Raise e => Raise e | OutOfFuel => OutOfFuel end).

(** [kw['organizer'] = self], cal.py 608 *)
Definition with_spec_organizer (sp : spec) (i : string) : spec :=
  mkSpec (s_dtstart sp) (s_duration sp) (s_title sp) (s_description sp) (s_location sp) (s_status sp)
         (s_recurrence sp) (s_allday sp) (s_categories sp) (s_transparent sp) (s_access sp)
         (s_document sp) (Some i) (s_attendees sp).

(** one call by the user of the API of cal.py 87-105, 139-150, 413-453, 607-609, 671-675, 690-734, 994-998, 1019-1031 *)
Definition step (cf : config) (s : system) (o : op) : smut unit :=
  match o with
  | OCreate uid sp now => drop (create_event cf s uid sp now)
  | OAttendeeCreate i sp now => drop (create_event cf s None (with_spec_organizer sp i) now)
  | ODelete r => delete_event s r
  | OInvite r l => on_event s r (fun e => invite e l)
  | OSetStatus r a st => on_event s r (fun e => set_status e a st)
  | OSetRole r a role => on_event s r (fun e => set_role e a role)
  | OAdjust r => on_event s r (fun e => (allday_adjust e, [], Ok tt))
  | OAssign r sp => on_event s r (fun e => (set_attrs sp e, [], Ok tt))
  | OSpecify r sp => on_event s r (set_on_object sp)
  | OAttendee i name typ => sret (create_attendee s i name typ) tt
  | OCalendar => sret (with_cals s (sys_cals s ++ [[]])) tt
  | OAddAttendee c a => add_attendee s c a
  | ORemoveAttendee c a => remove_attendee s c a
  | OImport c parsed p cr sync => import_cal cf s c parsed p cr sync
  end.

(** a history: the operations with, for each, the notifications and outcome, any sequence of such calls, starting from cal.py 255-258 *)
Inductive history (cf : config) : system -> list (op * list notification * res unit) -> Prop :=
| history_init : history cf init []
| history_step s h o s' n r : history cf s h -> step cf s o = (s', n, r) ->
    history cf s' (h ++ [(o, n, r)]).

(** what any sequence of such calls, starting from cal.py 255-258, can produce *)
Definition reachable (cf : config) (s : system) : Prop := exists h, history cf s h.
