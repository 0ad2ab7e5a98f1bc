(** getBlockedPeriods and getFreePeriods of the storage manager while other threads change the
    calendar.  For every attendee the call asks for the occurrences (Reads.v) and then reads,
    for every segment, whether the event is transparent, its status and the answer of the
    attendee.  Before each of these actions the others may have done anything, so a run is given
    by the states that its actions see.  Simplification: the states for reads that the code
    skips are given, but not looked at. *)
From Verif Require Import Base PyDate Recurrent Util CalTime Event Storage System Reads.

(** the states seen by the part of the call for one attendee, cal.py 180-190: by getOccurrences,
    and for every segment by the reads of the transparency (185), of the status (186) and of the
    answer (189) *)
Record pass := mkPass { ps_look : list system; ps_tell : list (system * system * system) }.
(** a run: the attendees with these states, cal.py 180 *)
Definition brun := list (attendee * pass).

(** the query for one attendee, cal.py 181-182 *)
Definition busy_query (fuel : nat) (begins ends : Z) (a : attendee) : query :=
  mkQuery (ROccurrences fuel) (Some begins, Some ends) (mk_criteria (AMany [a]) None None None None).

(** the occurrences it gives, each with the event it refers to, cal.py 182; OutOfFuel if the
    states do not suffice *)
Definition looked (fuel : nat) (begins ends : Z) (a : attendee) (ss : list system) : res (list (occurrence nat)) :=
  match rturns (busy_query fuel begins ends a) ss with
  | RDone (Ok (Expanded l)) => Ok (map (fun x => mkOcc (o_dtstart (snd x)) (o_duration (snd x)) (fst x)) l)
  | RDone (Raise x) => Raise x
  | _ => OutOfFuel
  end.

(** does the segment count?  cal.py 184-190 *)
Definition counts (a : attendee) (r : nat) (w : system * system * system) : res bool :=
  let '(s1, s2, s3) := w in
  if e_transparent (obj s1 r) || String.eqb (e_status (obj s2 r)) "CANCELED" then Ok false
  else
    let* st := get_status (obj s3 r) a in
    Ok (negb (match st with Some v => str_in v ["DECLINED"; "DELEGATED"]%string | None => false end)).

(** the period entered for a segment that counts, cal.py 191-204 *)
Definition entered (begins ends tb te dtstart : Z) (duration : option Z) : res (list (Z * Z)) :=
  let* dtend := end_of dtstart duration in
  if dtend <? begins then Ok []
  else if ends <=? dtstart then Ok []
  else
    let day_start := combine (dt_date dtstart) tb in
    let dtstart := if dtstart <? day_start then day_start else dtstart in
    let day_end := combine (dt_date dtstart) te in
    let dtend := if day_end <=? dtend then day_end else dtend in
    Ok [(dtstart, dtend)].

(** the inner loop, cal.py 182-204; OutOfFuel if the states do not suffice *)
Fixpoint told (a : attendee) (begins ends tb te : Z) (os : list (occurrence nat)) (ws : list (system * system * system))
  : res (list (Z * Z)) :=
  match os, ws with
  | [], _ => Ok []
  | o :: os', w :: ws' =>
      let* b := counts a (o_original o) w in
      let* x := if (b : bool) then entered begins ends tb te (o_dtstart o) (o_duration o) else Ok [] in
      let* r := told a begins ends tb te os' ws' in
      Ok (x ++ r)
  | _ :: _, [] => OutOfFuel
  end.

(** the part for one attendee, cal.py 181-204 *)
Definition pass_blocked (fuel : nat) (begins ends tb te : Z) (x : attendee * pass) : res (list (Z * Z)) :=
  let* occs := looked fuel begins ends (fst x) (ps_look (snd x)) in
  let* segs := segment_occurrences (begins, ends) occs in
  told (fst x) begins ends tb te segs (ps_tell (snd x)).

(** getBlockedPeriods, cal.py 174-218 *)
Definition blocked_run (fuel : nat) (k : brun) (begins ends tb te : Z) : res (list (Z * Z)) :=
  let* bl := rconcat_map (pass_blocked fuel begins ends tb te) k in
  let d := dt_date begins in
  let* end_d := if dt_time ends =? 0 then date_add (dt_date ends) (-1) else Ok (dt_date ends) in
  let* nb := night_blocks (night_fuel d end_d) tb te d end_d in
  Ok (remove_overlaps (dedup_pairs bl ++ nb)).

(** getFreePeriods, cal.py 221-245 *)
Definition free_run (fuel : nat) (k : brun) (begins ends tb te : Z) (minimal : option Z) : res (list (Z * Z)) :=
  let* bl := blocked_run fuel k begins ends tb te in
  let begins := if begins <? combine (dt_date begins) tb then combine (dt_date begins) tb else begins in
  let ends := if combine (dt_date ends) te <? ends then combine (dt_date ends) te else ends in
  Ok (free_loop tb minimal ends begins bl).
