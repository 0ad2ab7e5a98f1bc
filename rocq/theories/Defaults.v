(** The attendee lists of specifications as objects (src/calcore/cal.py 57-85).
    [attendees=[]] in the argument list of EventSpecification.__init__ is made
    once, when the class is: every specification made without attendees refers to
    that one list.  System.v treats attendee lists as values.
    Rules and categories stay values here (Alias.v has them as objects). *)
From Verif Require Import Base PyDate Recurrent CalTime Event Storage ICal System.

(** a list of (attendee, role, status), cal.py 53 *)
Definition people := list (attendee * string * option string).

(** cal.py 57-85: list objects (number 0 is the default argument), specification
    objects with the number of their list, and everything else *)
Record dstate := mkD {
  d_lists : list people;
  d_specs : list (spec * nat);
  d_sys : system }.

(** before any call: the default argument is empty, cal.py 70 *)
Definition dinit : dstate := mkD [[]] [] init.

(** the argument [attendees]: the caller's list number [i], or left out; cal.py 70 *)
Definition list_of (a : option nat) : nat := match a with Some i => S i | None => O end.

(** [self.attendees = attendees], cal.py 85, read at cal.py 102 and 120 *)
Definition with_people (sp : spec) (l : people) : spec :=
  mkSpec (s_dtstart sp) (s_duration sp) (s_title sp) (s_description sp) (s_location sp) (s_status sp)
         (s_recurrence sp) (s_allday sp) (s_categories sp) (s_transparent sp) (s_access sp)
         (s_document sp) (s_organizer sp) l.

(** what the list object holds now, cal.py 102 *)
Definition list_at (d : dstate) (n : nat) : people := nth n (d_lists d) [].

(** the specification object with what it refers to now, cal.py 87-105 *)
Definition spec_at (d : dstate) (k : nat) : spec :=
  let '(sp, n) := nth k (d_specs d) (mkSpec 0 None "" "" "" "" None false [] false "" None None [], O) in
  with_people sp (list_at d n).

(** Calls.  [sp] gives the arguments other than attendees; its list is not read.
    [DChange] is any change in place (append, remove, ...) of the list
    [specification.attendees].  cal.py 57-85, 87-105, 139-146, 607-609. *)
Inductive dop :=
| DList (l : people)                                            (* l = [...] *)
| DListChange (i : nat) (f : people -> people)                  (* the caller's own list changed in place *)
| DSpec (sp : spec) (a : option nat)                            (* EventSpecification(...) *)
| DChange (k : nat) (f : people -> people)                      (* specification.attendees changed in place *)
| DCreateFrom (uid : option string) (k : nat) (now : Z)         (* manager.createEventFromSpecification *)
| DSet (r : nat) (k : nat)                                      (* specification.setOnObject(event) *)
| DCreate (uid : option string) (sp : spec) (a : option nat) (now : Z)     (* manager.createEvent *)
| DAttendeeCreate (i : string) (sp : spec) (a : option nat) (now : Z)      (* attendee.createEvent *)
| DOther (o : op).                                              (* any other call *)

(** one call, cal.py 57-85, 87-105, 139-146, 607-609 *)
Definition dstep (cf : config) (d : dstate) (o : dop) : dstate * list notification * res unit :=
  let on_sys (q : op) := let '(s, n, x) := step cf (d_sys d) q in (mkD (d_lists d) (d_specs d) s, n, x) in
  match o with
  | DList l => (mkD (d_lists d ++ [l]) (d_specs d) (d_sys d), [], Ok tt)
  | DListChange i f => (mkD (replace_nth (S i) (d_lists d) (f (list_at d (S i)))) (d_specs d) (d_sys d), [], Ok tt)
  | DSpec sp a => (mkD (d_lists d) (d_specs d ++ [(sp, list_of a)]) (d_sys d), [], Ok tt)
  | DChange k f =>
      match nth_error (d_specs d) k with
      | Some (_, n) => (mkD (replace_nth n (d_lists d) (f (list_at d n))) (d_specs d) (d_sys d), [], Ok tt)
      | None => (d, [], Ok tt)
      end
  | DCreateFrom uid k now => on_sys (OCreate uid (spec_at d k) now)
  | DSet r k => on_sys (OSpecify r (spec_at d k))
  | DCreate uid sp a now => on_sys (OCreate uid (with_people sp (list_at d (list_of a))) now)
  | DAttendeeCreate i sp a now => on_sys (OAttendeeCreate i (with_people sp (list_at d (list_of a))) now)
  | DOther q => on_sys q
  end.

(** any sequence of calls, cal.py 57-85, 87-105, 139-146, 607-609 *)
Definition drun (cf : config) (h : list dop) : dstate := fold_left (fun d o => fst (fst (dstep cf d o))) h dinit.
