(** Model of SearchCriteria, the query side of the storage and of the storage
    manager, and the per-attendee and per-calendar queries
    (src/calcore/cal.py 127-245, 287-385, 597-644, 912-985). *)
From Verif Require Import Base PyDate Recurrent Util CalTime Event.

(** The [attendees] argument of SearchCriteria: None, a single attendee, or a
    list (cal.py 327-330). *)
Inductive att_arg := ANone | AOne (a : attendee) | AMany (l : list attendee).

(** cal.py 327-330 and 338-340 *)
Definition norm_attendees (a : att_arg) : option (list attendee) :=
  match a with ANone => None | AOne x => Some [x] | AMany l => Some l end.

(** SearchCriteria, cal.py 318-334 *)
Record criteria := mkCrit {
  c_attendees : option (list attendee);
  c_status : option string;
  c_role : option string;
  c_categories : option (list string);
  c_organizer : option attendee }.

(** SearchCriteria.__init__, cal.py 321-334 *)
Definition mk_criteria (a : att_arg) (st ro : option string) (cats : option (list string))
           (org : option attendee) : criteria :=
  mkCrit (norm_attendees a) st ro cats org.

(** NullSearchCriteria, cal.py 388-390 *)
Definition null_criteria : criteria := mk_criteria ANone None None None None.

(** Python's [a or b], on lists or None, cal.py 341 and 345 *)
Definition or_list {A} (a b : option (list A)) : option (list A) :=
  match a with Some (_ :: _) => a | _ => b end.
(** [a or b] on strings or None, cal.py 342-344 *)
Definition or_str (a b : option string) : option string :=
  match a with Some (String _ _) => a | _ => b end.
(** [a or b] on attendees or None, cal.py 346 *)
Definition or_obj {A} (a b : option A) : option A :=
  match a with Some _ => a | None => b end.

(** clone, cal.py 336-348: the object's own values win over the arguments *)
Definition clone (c : criteria) (a : att_arg) (st ro : option string)
           (cats : option (list string)) (org : option attendee) : criteria :=
  mkCrit (or_list (c_attendees c) (norm_attendees a))
         (or_str (c_status c) st) (or_str (c_role c) ro)
         (or_list (c_categories c) cats) (or_obj (c_organizer c) org).

(** the attendee loop of _match, cal.py 367-385 *)
Fixpoint match_attendees (c : criteria) (e : event) (l : list attendee) : res bool :=
  match l with
  | [] => Ok false
  | a :: r =>
      let* h := has_attendee e a in
      if negb h then match_attendees c e r
      else
        let* st := get_status e a in
        if match c_status c with Some s => negb (opt_str_eqb (Some s) st) | None => false end
        then match_attendees c e r
        else
          let* ro := get_role e a in
          if match c_role c with Some s => negb (opt_str_eqb (Some s) ro) | None => false end
          then match_attendees c e r
          else Ok true
  end.

(** _match, cal.py 352-385 *)
Definition match_criteria (c : criteria) (e : event) : res bool :=
  if match c_categories c with
     | Some cats => negb (existsb (in_category e) cats)
     | None => false
     end then Ok false
  else
    let* wrong :=
      match c_organizer c with
      | Some o => let* i := attendee_id o in Ok (negb (opt_str_eqb (get_organizer_id e) (Some i)))
      | None => Ok false
      end in
    if (wrong : bool) then Ok false
    else match c_attendees c with
         | None => Ok true
         | Some l => match_attendees c e l
         end.

(** _getMatchingEvents, cal.py 301-309; [evs] are self._events.values() *)
Definition matching_events (evs : list event) (c : option criteria) : res (list event) :=
  rfilter (match_criteria (match c with Some c => c | None => null_criteria end)) evs.

(** StorageBase.getEvents, cal.py 287-289 (and the manager's 164-165) *)
Definition get_events (evs : list event) (p : period) (c : option criteria) : res (list event) :=
  let* l := matching_events evs c in
  rfilter (fun e => in_period (e_dtstart e) (e_duration e) p) l.

(** StorageBase.getOccurrences, cal.py 291-297 (and 167-168) *)
Definition get_occurrences (fuel : nat) (evs : list event) (p : period) (c : option criteria)
  : res (list (occurrence event)) :=
  let* _ := assert_bounded p in
  let* l := matching_events evs c in
  rconcat_map (fun e => expand fuel e p) l.

(** getOccurrencesSegmented, cal.py 170-172 and 930-935 *)
Definition get_occurrences_segmented (fuel : nat) (evs : list event) (p : period)
           (c : option criteria) : res (list (occurrence event)) :=
  let* l := get_occurrences fuel evs p c in
  let* b := assert_bounded p in     (* holds: getOccurrences has just asserted it *)
  segment_occurrences b l.

(** does this segment block the attendee?  cal.py 184-190 *)
Definition blocks (a : attendee) (e : event) : res bool :=
  if e_transparent e || String.eqb (e_status e) "CANCELED" then Ok false
  else
    let* st := get_status e a in
    Ok (negb (match st with Some s => str_in s ["DECLINED"; "DELEGATED"]%string | None => false end)).

(** body of the inner loop of getBlockedPeriods, cal.py 183-204 *)
Definition blocked_of (a : attendee) (begins ends tb te : Z) (o : occurrence event)
  : res (list (Z * Z)) :=
  let* b := blocks a (o_original o) in
  if negb b then Ok []
  else
    let dtstart := o_dtstart o in
    let* dtend := end_of dtstart (o_duration o) in
    if dtend <? begins then Ok []
    else if ends <=? dtstart then Ok []
    else
      let day_start := combine (dt_date dtstart) tb in
      let dtstart := if dtstart <? day_start then day_start else dtstart in
      let day_end := combine (dt_date dtstart) te in
      let dtend := if day_end <=? dtend then day_end else dtend in
      Ok [(dtstart, dtend)].

(** [==] on the keys of the dictionary of cal.py 204 *)
Definition pair_eqb (a b : Z * Z) : bool := (fst a =? fst b) && (snd a =? snd b).

(** the keys of the dictionary built at cal.py 204 *)
Fixpoint dedup_pairs (l : list (Z * Z)) : list (Z * Z) :=
  match l with
  | [] => []
  | x :: r => let r' := dedup_pairs r in if existsb (pair_eqb x) r' then r' else x :: r'
  end.

(** the [while d <= end_d] loop, cal.py 211-217; [n] bounds the number of days *)
Fixpoint night_blocks (n : nat) (tb te d end_d : Z) : res (list (Z * Z)) :=
  match n with
  | O => Ok []
  | S n' =>
      if d <=? end_d then
        let* nd := date_add d 1 in
        let* r := night_blocks n' tb te nd end_d in
        Ok ((combine d 0, combine d tb) :: (combine d te, combine nd 0) :: r)
      else Ok []
  end.

(** bound for the loop of cal.py 211-217 *)
Definition night_fuel (d end_d : Z) : nat := S (Z.to_nat (end_d - d + 1)).

(** getBlockedPeriods, cal.py 174-218 *)
Definition get_blocked (fuel : nat) (evs : list event) (atts : list attendee)
           (begins ends tb te : Z) : res (list (Z * Z)) :=
  let* bl := rconcat_map (fun a =>
      let* occs := get_occurrences_segmented fuel evs (Some begins, Some ends)
                     (Some (mk_criteria (AMany [a]) None None None None)) in
      rconcat_map (blocked_of a begins ends tb te) occs) atts in
  let d := dt_date begins in
  let* end_d := if dt_time ends =? 0 then date_add (dt_date ends) (-1) else Ok (dt_date ends) in
  let* nb := night_blocks (night_fuel d end_d) tb te d end_d in
  Ok (remove_overlaps (dedup_pairs bl ++ nb)).

(** is the gap long enough?  cal.py 237-238 and 242-243 *)
Definition long_enough (minimal : option Z) (len : Z) : bool :=
  match minimal with None => true | Some m => m <=? len end.

(** the loop of getFreePeriods, cal.py 234-245 *)
Fixpoint free_loop (tb : Z) (minimal : option Z) (ends last : Z) (bl : list (Z * Z))
  : list (Z * Z) :=
  match bl with
  | [] =>
      if negb (last =? ends) && long_enough minimal (ends - last) then [(last, ends)] else []
  | (s, e) :: r =>
      (if (tb <=? dt_time s) && negb (last =? s) && long_enough minimal (s - last)
       then [(last, s)] else [])
      ++ free_loop tb minimal ends e r
  end.

(** getFreePeriods, cal.py 221-245 *)
Definition get_free (fuel : nat) (evs : list event) (atts : list attendee)
           (begins ends tb te : Z) (minimal : option Z) : res (list (Z * Z)) :=
  let* bl := get_blocked fuel evs atts begins ends tb te in
  let begins := if begins <? combine (dt_date begins) tb then combine (dt_date begins) tb
                else begins in
  let ends := if combine (dt_date ends) te <? ends then combine (dt_date ends) te else ends in
  Ok (free_loop tb minimal ends begins bl).

(** AttendeeBase.getEvents / getOccurrences, cal.py 619-633 *)
Definition restrict_attendees (c : option criteria) (l : list attendee) : criteria :=
  match c with
  | None => mk_criteria (AMany l) None None None None
  | Some c => clone c (AMany l) None None None None
  end.

(** AttendeeBase.getEvents, cal.py 619-625 *)
Definition attendee_events (evs : list event) (a : attendee) (p : period) (c : option criteria) :=
  get_events evs p (Some (restrict_attendees c [a])).
(** AttendeeBase.getOccurrences, cal.py 627-633 *)
Definition attendee_occurrences (fuel : nat) (evs : list event) (a : attendee) (p : period)
           (c : option criteria) :=
  get_occurrences fuel evs p (Some (restrict_attendees c [a])).

(** getOrganizedEvents, cal.py 635-641 *)
Definition organized_events (evs : list event) (a : attendee) (c : option criteria) :=
  get_events evs (None, None)
    (Some (match c with
           | None => mk_criteria ANone None None None (Some a)
           | Some c => clone c ANone None None None (Some a)
           end)).

(** CalendarBase.getEvents / getOccurrences / getOccurrencesSegmented,
    cal.py 912-935; [atts] is self.getAttendees() (967-972) *)
Definition calendar_events (evs : list event) (atts : list attendee) (p : period)
           (c : option criteria) :=
  get_events evs p (Some (restrict_attendees c atts)).
(** CalendarBase.getOccurrences, cal.py 921-928 *)
Definition calendar_occurrences (fuel : nat) (evs : list event) (atts : list attendee)
           (p : period) (c : option criteria) :=
  get_occurrences fuel evs p (Some (restrict_attendees c atts)).
(** CalendarBase.getOccurrencesSegmented, cal.py 930-935 *)
Definition calendar_segmented (fuel : nat) (evs : list event) (atts : list attendee)
           (p : period) (c : option criteria) :=
  get_occurrences_segmented fuel evs p (Some (restrict_attendees c atts)).

(** the day period of getEventsInDay / getOccurrencesInDay, cal.py 937-954 *)
Definition day_period (d : Z) : res period :=
  let* e := dt_add (combine d 0) DAY in Ok (Some (combine d 0), Some e).
(** getEventsInDay, cal.py 937-941 *)
Definition calendar_events_in_day (evs : list event) (atts : list attendee) (d : Z)
           (c : option criteria) : res (list event) :=
  let* p := day_period d in calendar_events evs atts p c.
(** getOccurrencesInDay, cal.py 943-954 *)
Definition calendar_occurrences_in_day (fuel : nat) (evs : list event) (atts : list attendee)
           (d : Z) (c : option criteria) : res (list (occurrence event)) :=
  let* p := day_period d in calendar_segmented fuel evs atts p c.

(** getRecentYears, cal.py 956-959 *)
Definition recent_years (year : Z) : list Z := [year - 1; year; year + 1].
