(** setOnObject of several specifications on one event at the same time.  An action compares one
    attribute, assigns one attribute, or does one of the calls that follow about the organizer
    and the attendees; between any two actions another thread may run.  Simplification: each of
    these calls is one action (Invites.v takes them apart). *)
From Verif Require Import Base PyDate Recurrent CalTime Event System.

(** the attributes in the dictionary of a specification except organizer and attendees,
    cal.py 57-85 and 90-91; their order in the dictionary is any *)
Inductive field :=
| FStart | FDuration | FTitle | FDescription | FLocation | FStatus | FRule | FAllday | FCategories | FTransparent | FAccess | FDocument.
(** all of them, cal.py 57-85 *)
Definition all_fields : list field :=
  [FStart; FDuration; FTitle; FDescription; FLocation; FStatus; FRule; FAllday; FCategories; FTransparent; FAccess; FDocument].

(** [getattr(o, name) == value], cal.py 92 *)
Definition holds_value (f : field) (s : spec) (e : event) : bool :=
  match f with
  | FStart => e_dtstart e =? s_dtstart s
  | FDuration => opt_eqb Z.eqb (e_duration e) (s_duration s)
  | FTitle => String.eqb (e_title e) (s_title s)
  | FDescription => String.eqb (e_description e) (s_description s)
  | FLocation => String.eqb (e_location e) (s_location s)
  | FStatus => String.eqb (e_status e) (s_status s)
  | FRule => opt_rule_eqb (e_recurrence e) (s_recurrence s)
  | FAllday => Bool.eqb (e_allday e) (s_allday s)
  | FCategories => set_eqb (e_categories e) (s_categories s)
  | FTransparent => Bool.eqb (e_transparent e) (s_transparent s)
  | FAccess => String.eqb (e_access e) (s_access s)
  | FDocument => opt_str_eqb (e_document e) (s_document s)
  end.

(** are they the same attribute?  cal.py 93 *)
Definition field_eq (f g : field) : {f = g} + {f <> g}.
Proof. decide equality. Defined.

(** [setattr(o, name, value)], cal.py 93 *)
Definition put_value (f : field) (s : spec) (e : event) : event :=
  mkEvent (e_uid e)
    (if field_eq f FStart then s_dtstart s else e_dtstart e)
    (if field_eq f FDuration then s_duration s else e_duration e)
    (if field_eq f FTitle then s_title s else e_title e)
    (if field_eq f FDescription then s_description s else e_description e)
    (if field_eq f FLocation then s_location s else e_location e)
    (if field_eq f FStatus then s_status s else e_status e)
    (if field_eq f FRule then s_recurrence s else e_recurrence e)
    (if field_eq f FAllday then s_allday s else e_allday e)
    (if field_eq f FCategories then s_categories s else e_categories e)
    (if field_eq f FTransparent then s_transparent s else e_transparent e)
    (if field_eq f FAccess then s_access s else e_access e)
    (if field_eq f FDocument then s_document s else e_document e)
    (e_organizer e) (e_state e) (e_role e).

(** what follows the attributes: _setParticipationStatus, setParticipationRole, and the
    organizer, cal.py 95-105 *)
Inductive people_deed := DStatus (a : attendee) (st : option string) | DRole (a : attendee) (ro : string) | DOrganizer (o : option string).
(** in order, cal.py 95-105 *)
Definition deeds (s : spec) : list people_deed :=
  match s_organizer s with
  | Some i => [DStatus (Some i) (Some "ACCEPTED"); DRole (Some i) "REQ-PARTICIPANT"; DOrganizer (Some i)]%string
  | None => [DOrganizer None]
  end ++ flat_map (fun x => [DRole (fst (fst x)) (snd (fst x)); DStatus (fst (fst x)) (snd x)]) (s_attendees s).
(** one of them, cal.py 96-100 and 104-105 *)
Definition do_deed (d : people_deed) (e : event) : mut :=
  match d with
  | DStatus a st => set_status_raw e a st
  | DRole a ro => set_role e a ro
  | DOrganizer o => (with_organizer e o, [], Ok tt)
  end.

(** where an editor is: before the next attribute (cal.py 90), before the assignment (93), before
    the next of the calls that follow (95-105), or returned or raised *)
Inductive editor := ELook (fs : list field) | EPut (f : field) (fs : list field) | EPeople (l : list people_deed) | EOver (r : res unit).

(** the next action of an editor, cal.py 87-105 *)
Definition estep (s : spec) (e : event) (t : editor) : event * editor :=
  match t with
  | ELook (f :: fs) => (e, if holds_value f s e then ELook fs else EPut f fs)
  | ELook [] => (e, EPeople (deeds s))
  | EPut f fs => (put_value f s e, ELook fs)
  | EPeople (d :: l) =>
      let '(e', _, r) := do_deed d e in
      (e', match r with Ok _ => EPeople l | Raise x => EOver (Raise x) | OutOfFuel => EOver OutOfFuel end)
  | EPeople [] => (e, EOver (Ok tt))
  | EOver r => (e, EOver r)
  end.

(** editor [k] does its next action, cal.py 87-105 *)
Definition ego (w : event * list (spec * editor)) (k : nat) : event * list (spec * editor) :=
  let '(e, l) := w in
  match nth_error l k with
  | Some (s, t) => let '(e', t') := estep s e t in (e', replace_nth k l (s, t'))
  | None => (e, l)
  end.

(** the editors set these specifications, each in the order of its dictionary, and take turns as
    in [ks]; cal.py 87-105 *)
Definition edits (e : event) (l : list (spec * list field)) (ks : list nat) : event * list (spec * editor) :=
  fold_left ego ks (e, map (fun x => (fst x, ELook (snd x))) l).
