(** The whole system with subscribers that act while they are being notified
    (src/calcore/cal.py 143-150, 413-440, 690-746; zope.event's [notify] calls
    each subscriber in turn).

    In System.v notifications are the output of a step.  Here they are delivered:
    every subscriber is called in the order of the list, on the state as it is by
    then, with the event object in question.  It then runs a program: it makes
    any number of calls of the API, each chosen from what it remembers, what it
    sees in the system and how the calls before came out, and in the end returns
    or raises.  The notifications of each call are delivered in the same way
    before that call returns.  A subscriber may catch what a call raises; if it
    raises itself, that ends the whole call that notified, as in Python.  What
    subscribers remember is a value of any type [M] that they all share, so it
    can be one part for each.

    [depth] bounds the nesting of deliveries, as Python's recursion limit does;
    [OutOfFuel] is what happens beyond it (in Python an exception, which
    subscribers can catch here as well).

    Simplifications: as in System.v; the list of subscribers does not change
    while they are notified (one that leaves is one that remembers to do nothing),
    and a subscriber's program ends. *)
From Verif Require Import Base PyDate Recurrent CalTime Event Storage ICal System.

(** what a subscriber does, for instance that of tests/test_cal.py 7-12: it
    makes a call or ends, leaving the memory [k]; what comes after a call depends
    on the memory, the system and the outcome after it *)
Inductive program (M : Type) :=
| Return (k : M) (r : res unit)
| Call (k : M) (o : op) (next : M -> system -> res unit -> program M).
Arguments Return {M} k r.
Arguments Call {M} k o next.

(** a subscriber, told something about object [r]: tests/test_cal.py 7-12 *)
Definition watcher (M : Type) := M -> system -> nat -> notification -> program M.

(** the outcome of a call that may change the memory of the subscribers, as at cal.py 145, 150, 426, 741 *)
Definition tmut (M A : Type) := (M * smut A)%type.

(** a statement that notifies nobody, as at cal.py 737-739 *)
Definition unheard {M A} (k : M) (m : smut A) : tmut M A := (k, m).

(** one statement after the other, as at cal.py 737-741 *)
Definition tbind {M A B} (m : tmut M A) (f : M -> system -> A -> tmut M B) : tmut M B :=
  let '(k, (s, n, r)) := m in
  match r with
  | Ok a => let '(k', (s', n', r')) := f k s a in (k', (s', n ++ n', r'))
  | Raise e => (k, (s, n, Raise e))
  | OutOfFuel => (k, (s, n, OutOfFuel))
  end.

(** the call of notify, as at cal.py 145, 150, 426, 741 *)
Definition teller (M : Type) := M -> system -> nat -> notification -> tmut M unit.

(** a notification, recorded and delivered: cal.py 426 and 741 *)
Definition announce {M} (tell : teller M) (k : M) (s : system) (r : nat) (x : notification) : tmut M unit :=
  tbind (unheard k (s, [x], Ok tt)) (fun k s _ => tell k s r x).

(** setParticipationStatus, cal.py 419-426 *)
Definition set_status_on {M} (tell : teller M) (k : M) (s : system) (r : nat) (a : attendee) (st : option string) : tmut M unit :=
  if match st with None => true | Some x => str_in x statuses end then
    tbind (unheard k (slift s (get_status (obj s r) a))) (fun k s old =>
    if opt_str_eqb old st then unheard k (sret s tt)
    else
      tbind (unheard k (on_event s r (fun e => set_status_raw e a st))) (fun k s _ =>
      match a with
      | Some i => announce tell k s r (NParticipation (e_uid (obj s r)) i old st)
      | None => unheard k (sret s tt)
      end))
  else unheard k (sfail s AssertionError).

(** setParticipationRole, cal.py 437-440 *)
Definition set_role_on (s : system) (r : nat) (a : attendee) (role : string) : smut unit :=
  on_event s r (fun e => set_role e a role).

(** invite, cal.py 413-417 *)
Fixpoint invite_on {M} (tell : teller M) (k : M) (s : system) (r : nat) (l : list attendee) : tmut M unit :=
  match l with
  | [] => unheard k (sret s tt)
  | a :: l' =>
      tbind (unheard k (slift s (get_status (obj s r) a))) (fun k s st =>
      match st with
      | Some _ => invite_on tell k s r l'
      | None =>
          tbind (tbind (set_status_on tell k s r a (Some "NEEDS-ACTION"%string))
                       (fun k s _ => unheard k (set_role_on s r a "REQ-PARTICIPANT")))
                (fun k s _ => invite_on tell k s r l')
      end)
  end.

(** createEventFromSpecification of the manager, cal.py 143-146 *)
Definition create_on {M} (tell : teller M) (cf : config) (k : M) (s : system) (uid : option string) (sp : spec) (now : Z)
  : tmut M nat :=
  tbind (unheard k (create_event cf s uid sp now)) (fun k s r =>
  tbind (tell k s r (NCreated (e_uid (obj s r)))) (fun k s _ => unheard k (sret s r))).

(** deleteEvent of the manager, cal.py 148-150 *)
Definition delete_on {M} (tell : teller M) (k : M) (s : system) (r : nat) : tmut M unit :=
  tbind (unheard k (delete_event s r)) (fun k s _ => tell k s r (NDeleted (e_uid (obj s r)))).

(** _importExistingEvent, cal.py 736-741 *)
Definition import_existing_on {M} (tell : teller M) (cf : config) (k : M) (s : system) (c : nat) (uid : string) (v : vevent)
  : tmut M unit :=
  tbind (unheard k (slift s (get_event s uid))) (fun k s r =>
  tbind (unheard k (slift s (import_spec (cf_tz cf) (source_knows s) (main_attendee s c) v))) (fun k s sp =>
  tbind (unheard k (slift s (will_modify sp (obj s r)))) (fun k s b =>
  if b : bool then
    tbind (unheard k (on_event s r (set_on_object sp))) (fun k s _ => announce tell k s r (NModified (e_uid (obj s r))))
  else unheard k (sret s tt)))).

(** _importNewEvent, cal.py 743-746 *)
Definition import_new_on {M} (tell : teller M) (cf : config) (k : M) (s : system) (c : nat) (uid : string) (v : vevent)
  : tmut M unit :=
  tbind (unheard k (slift s (import_spec (cf_tz cf) (source_knows s) (main_attendee s c) v))) (fun k s sp =>
  tbind (create_on tell cf k s (Some uid) sp 0) (fun k s _ => unheard k (sret s tt))).

(** body of the loop of import_, cal.py 713-728 *)
Definition import_one_on {M} (tell : teller M) (cf : config) (k : M) (s : system) (c : nat) (known : list string) (v : vevent)
  : tmut M string :=
  match v_uid v with
  | None => unheard k (sfail s KeyError)
  | Some uid =>
      if str_in uid known then tbind (import_existing_on tell cf k s c uid v) (fun k s _ => unheard k (sret s uid))
      else if has_event s uid then unheard k (sret s uid)
      else tbind (import_new_on tell cf k s c uid v) (fun k s _ => unheard k (sret s uid))
  end.

(** the [for e in ical.walk(...)] loop, cal.py 711-728 *)
Fixpoint import_loop_on {M} (tell : teller M) (cf : config) (k : M) (s : system) (c : nat) (known : list string) (l : list vevent)
  : tmut M (list string) :=
  match l with
  | [] => unheard k (sret s [])
  | v :: r =>
      tbind (import_one_on tell cf k s c known v) (fun k s uid =>
      tbind (import_loop_on tell cf k s c known r) (fun k s uids => unheard k (sret s (uid :: uids))))
  end.

(** the loop that deletes, cal.py 732-734 *)
Fixpoint delete_loop_on {M} (tell : teller M) (k : M) (s : system) (uids : list string) : tmut M unit :=
  match uids with
  | [] => unheard k (sret s tt)
  | u :: r =>
      tbind (unheard k (slift s (get_event s u))) (fun k s ref =>
      tbind (delete_on tell k s ref) (fun k s _ => delete_loop_on tell k s r))
  end.

(** import_, cal.py 690-734 *)
Definition import_on {M} (tell : teller M) (cf : config) (k : M) (s : system) (c : nat)
           (parsed : res (option (list vevent))) (p : period) (cr : option criteria) (synchronize : bool) : tmut M unit :=
  tbind (unheard k (slift s (cal_events s c p cr))) (fun k s events =>
  let known := nodup string_dec (map e_uid events) in
  tbind (unheard k (slift s parsed)) (fun k s ov =>
  match ov with
  | None => unheard k (sret s tt)
  | Some vs =>
      tbind (import_loop_on tell cf k s c known vs) (fun k s ical =>
      if synchronize then delete_loop_on tell k s (filter (fun u => negb (str_in u ical)) known)
      else unheard k (sret s tt))
  end)).

(** one call of the API, cal.py 87-105, 139-150, 413-453, 607-609, 671-675,
    690-734, 994-998, 1019-1031; those that notify nobody are as in System.v *)
Definition step_on {M} (tell : teller M) (cf : config) (k : M) (s : system) (o : op) : tmut M unit :=
  match o with
  | OCreate uid sp now => tbind (create_on tell cf k s uid sp now) (fun k s _ => unheard k (sret s tt))
  | OAttendeeCreate i sp now =>
      tbind (create_on tell cf k s None (with_spec_organizer sp i) now) (fun k s _ => unheard k (sret s tt))
  | ODelete r => delete_on tell k s r
  | OInvite r l => invite_on tell k s r l
  | OSetStatus r a st => set_status_on tell k s r a st
  | OImport c parsed p cr sync => import_on tell cf k s c parsed p cr sync
  | _ => unheard k (step cf s o)
  end.

(** what a subscriber does, call by call, as in tests/test_cal.py 7-12 *)
Fixpoint carry_out {M} (act : M -> system -> op -> tmut M unit) (s : system) (p : program M) : tmut M unit :=
  match p with
  | Return k r => (k, (s, [], r))
  | Call k o next =>
      let '(k1, (s1, n1, r1)) := act k s o in
      let '(k2, (s2, n2, r2)) := carry_out act s1 (next k1 s1 r1) in
      (k2, (s2, n1 ++ n2, r2))
  end.

(** [for subscriber in subscribers: subscriber(event)] of zope.event, called at cal.py 145, 150, 426, 741 *)
Fixpoint each_on {M} (act : M -> system -> op -> tmut M unit) (l : list (watcher M)) (k : M) (s : system) (r : nat) (x : notification)
  : tmut M unit :=
  match l with
  | [] => unheard k (sret s tt)
  | w :: l' => tbind (carry_out act s (w k s r x)) (fun k s _ => each_on act l' k s r x)
  end.

(** notify, called at cal.py 145, 150, 426, 741 *)
Fixpoint deliver {M} (depth : nat) (cf : config) (subs : list (watcher M)) (k : M) (s : system) (r : nat) (x : notification)
  : tmut M unit :=
  match depth with
  | O => (k, (s, [], OutOfFuel))
  | S d => each_on (step_on (deliver d cf subs) cf) subs k s r x
  end.

(** one call by the user of the API, cal.py 87-105, 139-150, 413-453, 607-609,
    671-675, 690-734, 994-998, 1019-1031 *)
Definition step_told {M} (depth : nat) (cf : config) (subs : list (watcher M)) (k : M) (s : system) (o : op) : tmut M unit :=
  step_on (deliver depth cf subs) cf k s o.

(** the states that calls can lead to, starting from cal.py 255-258, when before
    each call the subscribers may have been exchanged, and what they remember *)
Inductive told_history (cf : config) : system -> list notification -> Prop :=
| told_init : told_history cf init []
| told_step M (k : M) s n depth subs o k' s' n' r : told_history cf s n ->
    step_told depth cf subs k s o = (k', (s', n', r)) -> told_history cf s' (n ++ n').
