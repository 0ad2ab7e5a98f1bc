(** Queries whose period is not a pair of datetimes or None.  The other files take periods to
    be such pairs; here a bound may also be what [Period] (cal.py 1072-1073) puts second, a
    timedelta, or a plain date.  Neither can be ordered against a datetime (TypeError) and
    neither has a method [date] (AttributeError). *)
From Verif Require Import Base PyDate Recurrent CalTime Event Storage.

(** one end of a period, cal.py 1075-1088 *)
Inductive bound := BNone | BTime (t : Z) | BLength (d : Z) | BDay (d : Z).
(** the period a query is given, cal.py 164, 167, 170, 174, 221 *)
Definition bounds := (bound * bound)%type.

(** Period, cal.py 1072-1073 *)
Definition make_period (dtstart minutes : Z) : bounds := let (s, d) := Period dtstart minutes in (BTime s, BLength d).

(** inPeriod, cal.py 1075-1088 *)
Definition in_period_any (t : Z) (d : option Z) (p : bounds) : res bool :=
  let second := match snd p with
                | BNone => Ok true
                | BTime e => Ok (negb (e <=? t))
                | _ => Raise TypeError
                end in
  match fst p with
  | BNone => second
  | BTime b => let* y := end_of t d in if y <=? b then Ok false else second
  | _ => let* _ := end_of t d in Raise TypeError
  end.

(** EventBase.expand, cal.py 498-515 *)
Definition expand_any (fuel : nat) (e : event) (p : bounds) : res (list (occurrence event)) :=
  match e_recurrence e with
  | None =>
      let* b := in_period_any (e_dtstart e) (e_duration e) p in
      Ok (if b then [mkOcc (e_dtstart e) (e_duration e) e] else [])
  | Some r =>
      match snd p with
      | BTime pe =>
          let (l, f) := apply fuel r (e_dtstart e) (Some (VDate (dt_date pe))) in
          let* out := rconcat_map (fun d =>
            let t := combine d (dt_time (e_dtstart e)) in
            let* b := in_period_any t (e_duration e) p in
            Ok (if b then [mkOcc t (e_duration e) e] else [])) l in
          match f with GStop => Ok out | GRaise x => Raise x | GMore => OutOfFuel end
      | _ => Raise AttributeError
      end
  end.

(** StorageBase.getEvents, cal.py 287-289 *)
Definition events_any (evs : list event) (p : bounds) (c : option criteria) : res (list event) :=
  let* l := matching_events evs c in
  rfilter (fun e => in_period_any (e_dtstart e) (e_duration e) p) l.

(** StorageBase.getOccurrences, cal.py 291-297, with assertPeriodBounded, cal.py 1109-1111 *)
Definition occurrences_any (fuel : nat) (evs : list event) (p : bounds) (c : option criteria)
  : res (list (occurrence event)) :=
  let* _ := match p with (BNone, _) | (_, BNone) => Raise AssertionError | _ => Ok tt end in
  let* l := matching_events evs c in
  rconcat_map (fun e => expand_any fuel e p) l.

(** segmentOccurrences, cal.py 1123-1162: with another bound the first occurrence already
    raises, at 1134 or at 1141 *)
Definition segment_any (p : bounds) (occs : list (occurrence event)) : res (list (occurrence event)) :=
  match p, occs with
  | (BTime b, BTime e), _ => segment_occurrences (b, e) occs
  | _, [] => Ok []
  | (BTime b, _), o :: _ =>
      let x := if o_dtstart o <? b then b else o_dtstart o in
      let* _ := end_of (o_dtstart o) (o_duration o) in
      let* _ := next_midnight x in Raise TypeError
  | _, _ :: _ => Raise TypeError
  end.

(** getOccurrencesSegmented, cal.py 170-172 *)
Definition segmented_any (fuel : nat) (evs : list event) (p : bounds) (c : option criteria) :=
  let* l := occurrences_any fuel evs p c in segment_any p l.

(** getBlockedPeriods, cal.py 174-218: with another bound [dtend < begins] or
    [dtstart >= ends] (193-196) raises TypeError, and [begins.date()] or [ends.date()]
    (207-208) AttributeError *)
Definition blocked_any (fuel : nat) (evs : list event) (atts : list attendee) (p : bounds) (tb te : Z)
  : res (list (Z * Z)) :=
  match p with
  | (BTime b, BTime e) => get_blocked fuel evs atts b e tb te
  | _ =>
      let* _ := rconcat_map (fun a =>
        let* occs := segmented_any fuel evs p (Some (mk_criteria (AMany [a]) None None None None)) in
        rconcat_map (fun o =>
          let* k := blocks a (o_original o) in
          if negb k then Ok []
          else
            let* y := end_of (o_dtstart o) (o_duration o) in
            match fst p with
            | BTime b => if y <? b then Ok [] else Raise TypeError
            | _ => Raise TypeError
            end) occs : res (list (Z * Z))) atts in
      Raise AttributeError
  end.

(** getFreePeriods, cal.py 221-245 *)
Definition free_any (fuel : nat) (evs : list event) (atts : list attendee) (p : bounds) (tb te : Z)
           (minimal : option Z) : res (list (Z * Z)) :=
  match p with
  | (BTime b, BTime e) => get_free fuel evs atts b e tb te minimal
  | _ => let* _ := blocked_any fuel evs atts p tb te in Raise AttributeError
  end.
