(** Subscribers that act while they are being notified (src/calcore/cal.py
    413-440, events.py 48-56; zope.event's [notify] calls each subscriber in
    turn).  tests/test_cal.py 7-12 has such a subscriber.

    In Event.v a notification is only recorded.  Here it is delivered: every
    subscriber is called in the order of the list, on the event as it is by then,
    and may call one method of that event, whose notifications are delivered in
    the same way before the call returns.  A subscriber that makes two calls is
    the same as two subscribers, one after the other.

    Simplifications: a subscriber acts on the event it is told about and on
    nothing else; an exception raised while delivering leaves the method, as in
    Python.  [depth] bounds the nesting of deliveries, as Python's recursion
    limit does; [OutOfFuel] is what happens beyond it. *)
From Verif Require Import Base PyDate Recurrent CalTime Event.

(** the methods that notify or change what is notified, cal.py 413, 419, 437 *)
Inductive call :=
| CStatus (a : attendee) (st : option string)
| CRole (a : attendee) (role : string)
| CInvite (l : list attendee).

(** what a subscriber does on hearing of something: test_cal.py 7-12 *)
Definition subscriber := event -> notification -> option call.

(** setParticipationStatus, cal.py 419-426; [tell] is the call of notify at 426 *)
Definition set_status_told (tell : event -> notification -> mut)
           (e : event) (a : attendee) (st : option string) : mut :=
  if match st with None => true | Some s => str_in s statuses end then
    match get_status e a with
    | Ok old =>
        if opt_str_eqb old st then (e, [], Ok tt)
        else mbind (set_status_raw e a st)
                   (fun e' => match a with
                              | Some i =>
                                  let x := NParticipation (e_uid e') i old st in
                                  mbind (e', [x], Ok tt) (fun e'' => tell e'' x)
                              | None => (e', [], Ok tt)
                              end)
    | Raise x => (e, [], Raise x)
    | OutOfFuel => (e, [], OutOfFuel)
    end
  else (e, [], Raise AssertionError).

(** invite, cal.py 413-417 *)
Fixpoint invite_told (tell : event -> notification -> mut) (e : event) (l : list attendee) : mut :=
  match l with
  | [] => (e, [], Ok tt)
  | a :: r =>
      match get_status e a with
      | Ok None =>
          mbind (mbind (set_status_told tell e a (Some "NEEDS-ACTION"%string))
                       (fun e1 => set_role e1 a "REQ-PARTICIPANT"))
                (fun e2 => invite_told tell e2 r)
      | Ok (Some _) => invite_told tell e r
      | Raise x => (e, [], Raise x)
      | OutOfFuel => (e, [], OutOfFuel)
      end
  end.

(** one of the three methods, cal.py 413, 419, 437 *)
Definition perform (tell : event -> notification -> mut) (e : event) (c : call) : mut :=
  match c with
  | CStatus a st => set_status_told tell e a st
  | CRole a role => set_role e a role
  | CInvite l => invite_told tell e l
  end.

(** [for subscriber in subscribers: subscriber(event)] of zope.event, called at cal.py 426 *)
Fixpoint each (act : event -> call -> mut) (l : list subscriber) (e : event) (x : notification) : mut :=
  match l with
  | [] => (e, [], Ok tt)
  | sb :: r =>
      mbind (match sb e x with Some c => act e c | None => (e, [], Ok tt) end)
            (fun e' => each act r e' x)
  end.

(** notify, called at cal.py 426 *)
Fixpoint tell (depth : nat) (subs : list subscriber) (e : event) (x : notification) : mut :=
  match depth with
  | O => (e, [], OutOfFuel)
  | S d => each (perform (tell d subs)) subs e x
  end.

(** a method of an event called by the user, cal.py 413, 419, 437 *)
Definition act (depth : nat) (subs : list subscriber) (e : event) (c : call) : mut :=
  perform (tell depth subs) e c.

(** the subscriber of test_cal.py 7-12, with the status it sets depending on the attendee *)
Definition settler (want : string -> string) : subscriber :=
  fun _ x => match x with
             | NParticipation _ who _ _ => Some (CStatus (Some who) (Some (want who)))
             | _ => None
             end.
(** test_cal.py 7-12 *)
Definition accepter : subscriber := settler (fun _ => "ACCEPTED"%string).
