(** export of an event and of a calendar while other threads change the calendar.  The calendar
    first asks for its events (Reads.v) and then exports them one by one; the export of an event
    reads its attributes one by one, some of them twice.  Before each read the others may have
    done anything, so the export of an event is given by the state that each read sees.
    Simplifications: finding the attendees of the calendar is one action; a rule is read as a
    value; a document that is None when it is read again is not written (the library would
    decide what is written for None). *)
From Verif Require Import Base PyDate Recurrent CalTime Event Storage ICal System Reads.

(** the reads of an attribute, in order: cal.py 526, 527 or 535, 531 or 539, 543, 544, 551, 555,
    556, 562, 563, 564, 565, 566, 567, 568, 569, 570, 571 *)
Inductive site :=
| AtAllday | AtStart | AtStart2 | AtDuration | AtRule | AtRule2 | AtTransparent | AtUid | AtAccess
| AtTitle | AtDescription | AtDescription2 | AtLocation | AtLocation2 | AtCategories | AtCategories2
| AtDocument | AtDocument2 | AtStatus.

(** [if self.x: e.add('x', self.x)], cal.py 563-566 *)
Definition if_again (a b : string) : option string := match a with EmptyString => None | _ => Some b end.

(** the event [r] exported, the read [k] seeing the state [w k], cal.py 517-572 *)
Definition export_reads (private : bool) (r : nat) (w : site -> system) : res vevent :=
  let at_ k := obj (w k) r in
  let* dtend := end_of (e_dtstart (at_ AtStart2)) (e_duration (at_ AtDuration)) in
  let t x := if e_allday (at_ AtAllday) then IDate (dt_date x) else IFloat x in
  let* rr := match e_recurrence (at_ AtRule) with
             | None => Ok None
             | Some _ => match e_recurrence (at_ AtRule2) with Some x => Ok (Some (export_rule x)) | None => Raise AttributeError end
             end in
  let transp := Some (if e_transparent (at_ AtTransparent) then "TRANSPARENT" else "OPAQUE")%string in
  Ok (if private then
        mkV (Some (e_uid (at_ AtUid))) (Some (t (e_dtstart (at_ AtStart)))) (Some (t dtend)) None
            (Some "Private Event"%string) None None None None [] []
            transp (Some (e_access (at_ AtAccess))) None rr
      else
        mkV (Some (e_uid (at_ AtUid))) (Some (t (e_dtstart (at_ AtStart)))) (Some (t dtend)) None
            (Some (e_title (at_ AtTitle)))
            (if_again (e_description (at_ AtDescription)) (e_description (at_ AtDescription2)))
            (if_again (e_location (at_ AtLocation)) (e_location (at_ AtLocation2)))
            (Some (e_status (at_ AtStatus))) None []
            (match e_categories (at_ AtCategories) with [] => [] | _ => e_categories (at_ AtCategories2) end)
            transp (Some (e_access (at_ AtAccess)))
            (match e_document (at_ AtDocument) with
             | Some d => match truthy d with Some _ => e_document (at_ AtDocument2) | None => None end
             | None => None
             end) rr).

(** the loop, cal.py 980-982; OutOfFuel if the states do not suffice *)
Fixpoint export_all (rs : list nat) (ws : list (site -> system)) : res (list vevent) :=
  match rs, ws with
  | [], _ => Ok []
  | r :: rs', w :: ws' => let* v := export_reads false r w in let* vs := export_all rs' ws' in Ok (v :: vs)
  | _ :: _, [] => OutOfFuel
  end.

(** the query that the calendar makes, cal.py 912-919 *)
Definition export_query (p : period) (cr : option criteria) (atts : list attendee) : query :=
  mkQuery REvents p (restrict_attendees cr atts).

(** export of a calendar, cal.py 974-985: in [s0] its attendees are found, the query sees the
    states [look], and the exports see the states [tell]; OutOfFuel if they do not suffice *)
Definition export_run (c : nat) (p : period) (cr : option criteria) (s0 : system) (look : list system) (tell : list (site -> system))
  : res (list vevent) :=
  let* atts := cal_attendees s0 c in
  match rturns (export_query p cr atts) look with
  | RDone (Ok (Found rs)) => export_all rs tell
  | RDone (Raise x) => Raise x
  | _ => OutOfFuel
  end.
