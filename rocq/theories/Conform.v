(** The model run on the repository's own tests: the unit tests of
    src/calcore/tests and the doctests of doc/ that test_cal.py 103-113 collects.
    These are checks of the model, not proofs about it: they show that on the
    inputs the authors chose, the model answers what the authors expect of the
    code.

    Where a test edits iCalendar text, the record of the component's values is
    edited here.  Not reproduced: assertions about interfaces (verifyObject,
    test_recurrent.py and attendee.txt 94-109), and here test_cal.py 20-35, which
    needs a subscriber that acts (C111_invite_ex in PropReact.v).  Identity of objects is stated by
    position.  Python's lists of events have no fixed order and the tests sort
    them or count them; the model lists them in the order of creation, which in
    these tests is also the order of their starts. *)
From Verif Require Import Base PyDate Recurrent Util IsoWeek CalTime Event Storage ICal System.

(** * Shorthand *)

(** datetime(y, m, d, h, mi), as in every test file (test_cal.py 28) *)
Definition at_ (y m d h mi : Z) : Z := combine (ymd2ord y m d) (h * HOUR + mi * MINUTE).
(** datetime(y, m, d), calendar.txt 40 *)
Definition day_ (y m d : Z) : Z := at_ y m d 0 0.
(** (datetime, datetime), calendar.txt 40 *)
Definition between (b e : Z) : period := (Some b, Some e).
(** cal.MemoryStorage('storage'), test_cal.py 16 *)
Definition here : config := mkConfig "storage" "host" (fun _ => 0).
(** enough steps for every search below; test_ical.py 485-487 asks for five years *)
Definition plenty : nat := 3000.

(** createEvent's keywords with their defaults, cal.py 57-70 *)
Definition plan (start : Z) (duration : option Z) (title : string) : spec :=
  mkSpec start duration title "" "" "TENTATIVE" None false [] false "PUBLIC" None None [].
(** recurrence=..., recurrence.txt 39 *)
Definition repeating (sp : spec) (r : rule) : spec :=
  mkSpec (s_dtstart sp) (s_duration sp) (s_title sp) (s_description sp) (s_location sp) (s_status sp)
         (Some r) (s_allday sp) (s_categories sp) (s_transparent sp) (s_access sp) (s_document sp)
         (s_organizer sp) (s_attendees sp).
(** allday=True, allday.txt 29 *)
Definition whole_day (sp : spec) : spec :=
  mkSpec (s_dtstart sp) (s_duration sp) (s_title sp) (s_description sp) (s_location sp) (s_status sp)
         (s_recurrence sp) true (s_categories sp) (s_transparent sp) (s_access sp) (s_document sp)
         (s_organizer sp) (s_attendees sp).
(** categories=..., category.txt 58 *)
Definition filed (sp : spec) (l : list string) : spec :=
  mkSpec (s_dtstart sp) (s_duration sp) (s_title sp) (s_description sp) (s_location sp) (s_status sp)
         (s_recurrence sp) (s_allday sp) l (s_transparent sp) (s_access sp) (s_document sp)
         (s_organizer sp) (s_attendees sp).
(** transparent=True, meeting.txt 319 *)
Definition see_through (sp : spec) : spec :=
  mkSpec (s_dtstart sp) (s_duration sp) (s_title sp) (s_description sp) (s_location sp) (s_status sp)
         (s_recurrence sp) (s_allday sp) (s_categories sp) true (s_access sp) (s_document sp)
         (s_organizer sp) (s_attendees sp).
(** location=..., document=..., test_ical.py 23 and 29-30 *)
Definition placed (sp : spec) (location : string) (document : option string) : spec :=
  mkSpec (s_dtstart sp) (s_duration sp) (s_title sp) (s_description sp) location (s_status sp)
         (s_recurrence sp) (s_allday sp) (s_categories sp) (s_transparent sp) (s_access sp) document
         (s_organizer sp) (s_attendees sp).

(** the test's calls one after the other; every one of them must return as in doctests such as usecase.txt 29-161 *)
Fixpoint play (s : system) (l : list op) : option system :=
  match l with
  | [] => Some s
  | o :: r => match step here s o with (s', _, Ok _) => play s' r | _ => None end
  end.
(** the state after calls none of which fails, test_cal.py 14-17 *)
Definition after (l : list op) : system := match play init l with Some s => s | None => init end.
(** do all calls return? test_cal.py 14-17 *)
Definition runs (l : list op) : bool := match play init l with Some _ => true | None => false end.

(** the moment at which createEvent runs: any will do, cal.py 1113-1117 *)
Definition some_time : Z := day_ 2005 1 1.
(** who.createEvent(...), usecase.txt 60 *)
Definition creates (who : string) (sp : spec) : op := OAttendeeCreate who sp some_time.
(** s.createIndividual(i, name), usecase.txt 46 *)
Definition person (i name : string) : op := OAttendee i name "INDIVIDUAL".
(** s.createRoom(i, name), usecase.txt 54 *)
Definition room (i name : string) : op := OAttendee i name "ROOM".

(** who.getEvents(period), usecase.txt 69 *)
Definition seen (s : system) (who : string) (p : period) (c : option criteria) : res (list string) :=
  let* l := attendee_events (stored s) (Some who) p c in Ok (map e_title l).
(** who.getOccurrences(period), recurrence.txt 53 *)
Definition happens (s : system) (who : string) (p : period) : res (list Z) :=
  let* l := attendee_occurrences plenty (stored s) (Some who) p None in Ok (map o_dtstart l).
(** len of a list that a call returns, recurrence.txt 54 *)
Definition how_many {A} (r : res (list A)) : res nat := let* l := r in Ok (List.length l).
(** m.getFreePeriods(...), meeting.txt 97 *)
Definition gaps (s : system) (l : list string) (b e : Z) (minimal : option Z) : res (list (Z * Z)) :=
  get_free plenty (stored s) (map Some l) b e (9 * HOUR) (17 * HOUR) minimal.

(** * test_util.py *)

Example test_removeOverlapsExtend : remove_overlaps [(5, 7); (6, 12)] = [(5, 12)].
Proof. reflexivity. Qed.
Example test_removeOverlapsExtendEdge : remove_overlaps [(5, 7); (7, 12)] = [(5, 12)].
Proof. reflexivity. Qed.
Example test_removeOverlapsSub : remove_overlaps [(5, 12); (10, 11)] = [(5, 12)].
Proof. reflexivity. Qed.
Example test_removeOverlapsSubEdge :
  remove_overlaps [(5, 12); (5, 12)] = [(5, 12)] /\ remove_overlaps [(5, 12); (5, 7)] = [(5, 12)]
  /\ remove_overlaps [(5, 12); (7, 12)] = [(5, 12)].
Proof. repeat split. Qed.
Example test_removeOverlapsEmpty : remove_overlaps [] = [].
Proof. reflexivity. Qed.
Example test_removeOverlapsComplicated :
  remove_overlaps [(5, 10); (7, 10); (7, 12); (14, 18); (20, 23)] = [(5, 12); (14, 18); (20, 23)].
Proof. reflexivity. Qed.

(** * test_isoweek.py *)

Example test_isoweek_weeks :
  map weeks_in_year [2004; 2005; 2006; 2007; 2008; 2009] = [Ok 53; Ok 52; Ok 52; Ok 52; Ok 52; Ok 53].
Proof. reflexivity. Qed.
Example test_isoweek_dates :
  map (fun wd => weeknr2date 2005 6 (Some wd)) [1; 2; 3; 4; 5; 6]
  = map (fun d => Ok (ymd2ord 2005 2 d)) [7; 8; 9; 10; 11; 12].
Proof. reflexivity. Qed.

(** * test_segmenting.py *)

(** the payload of an Occurrence, test_segmenting.py 20-21 *)
Definition pieces (b e : Z) (l : list (Z * Z)) : res (list (Z * option Z)) :=
  let* r := segment_occurrences (b, e) (map (fun x => mkOcc (fst x) (Some (snd x)) tt) l) in
  Ok (map (fun o => (o_dtstart o, o_duration o)) r).
(** january, test_segmenting.py 6-7 *)
Definition january (l : list (Z * Z)) := pieces (day_ 2005 1 1) (day_ 2005 2 1) l.

(** the same pieces in whatever order: the tests sort them, test_segmenting.py 24-25 *)
Definition sorted_pieces (r : res (list (Z * option Z))) : res (list (Z * Z)) :=
  let* l := r in
  Ok (sort_pairs (map (fun x => (fst x, match snd x with Some d => d | None => 0 end)) l)).

Example test_segmented :
  sorted_pieces (january [(at_ 2005 1 2 17 0, 14 * HOUR)])
  = Ok [(at_ 2005 1 2 17 0, 7 * HOUR); (day_ 2005 1 3, 7 * HOUR)].
Proof. reflexivity. Qed.
Example test_segmented_three_days :
  sorted_pieces (january [(at_ 2005 1 2 17 0, 34 * HOUR)])
  = Ok [(at_ 2005 1 2 17 0, 7 * HOUR); (day_ 2005 1 3, DAY); (day_ 2005 1 4, 3 * HOUR)].
Proof. reflexivity. Qed.
Example test_segmented_null_case :
  sorted_pieces (january [(at_ 2005 1 2 17 0, HOUR)]) = Ok [(at_ 2005 1 2 17 0, HOUR)].
Proof. reflexivity. Qed.
Example test_segmented_multiple_occs :
  sorted_pieces (january [(at_ 2005 1 2 17 0, 34 * HOUR); (at_ 2005 1 3 14 0, 24 * HOUR)])
  = Ok [(at_ 2005 1 2 17 0, 7 * HOUR); (day_ 2005 1 3, 24 * HOUR); (at_ 2005 1 3 14 0, 10 * HOUR);
        (day_ 2005 1 4, 3 * HOUR); (day_ 2005 1 4, 14 * HOUR)].
Proof. reflexivity. Qed.
Example test_segment_start_period :
  sorted_pieces (pieces (at_ 2005 1 2 19 0) (day_ 2005 2 1) [(at_ 2005 1 2 17 0, 34 * HOUR)])
  = Ok [(at_ 2005 1 2 19 0, 5 * HOUR); (day_ 2005 1 3, 24 * HOUR); (day_ 2005 1 4, 3 * HOUR)].
Proof. reflexivity. Qed.
Example test_segment_end_period :
  sorted_pieces (pieces (day_ 2005 1 1) (at_ 2005 1 3 17 0) [(at_ 2005 1 2 17 0, 34 * HOUR)])
  = Ok [(at_ 2005 1 2 17 0, 7 * HOUR); (day_ 2005 1 3, 17 * HOUR)].
Proof. reflexivity. Qed.
Example test_segment_overflowing :
  sorted_pieces (pieces (at_ 2005 1 2 18 0) (at_ 2005 1 2 19 0) [(at_ 2005 1 2 17 0, 3 * HOUR)])
  = Ok [(at_ 2005 1 2 18 0, HOUR)].
Proof. reflexivity. Qed.
Example test_before_sameday :
  pieces (at_ 2005 1 2 17 0) (at_ 2005 1 2 20 0) [(at_ 2005 1 2 10 0, 3 * HOUR)] = Ok [].
Proof. reflexivity. Qed.
Example test_after_sameday :
  pieces (at_ 2005 1 1 17 0) (at_ 2005 1 2 17 0) [(at_ 2005 1 2 18 0, 14 * HOUR)] = Ok [].
Proof. reflexivity. Qed.
Example test_starts_in_day :
  sorted_pieces (pieces (day_ 2005 4 13) (day_ 2005 4 14) [(at_ 2005 4 13 14 0, 23 * HOUR)])
  = Ok [(at_ 2005 4 13 14 0, 10 * HOUR)].
Proof. reflexivity. Qed.
Example test_ends_in_day :
  sorted_pieces (pieces (day_ 2005 4 14) (day_ 2005 4 15) [(at_ 2005 4 13 14 0, 23 * HOUR)])
  = Ok [(day_ 2005 4 14, 13 * HOUR)].
Proof. reflexivity. Qed.
Example test_smaller_period_same_day :
  sorted_pieces (pieces (at_ 2005 4 13 15 0) (at_ 2005 4 13 16 0) [(at_ 2005 4 13 14 0, 5 * HOUR)])
  = Ok [(at_ 2005 4 13 15 0, HOUR)].
Proof. reflexivity. Qed.

(** getOccurrencesInDay of a calendar, test_segmenting.py 260 *)
Definition in_day (s : system) (c : nat) (d : Z) : res (list (Z * option Z)) :=
  let* atts := cal_attendees s c in
  let* l := calendar_occurrences_in_day plenty (stored s) atts d None in
  Ok (map (fun o => (o_dtstart o, o_duration o)) l).

Example test_occurrences_in_day :
  let l := [OCalendar; person "martijn" "Martijn"; OAddAttendee 0 (Some "martijn"%string);
            creates "martijn" (plan (at_ 2005 4 13 14 0) (Some (23 * HOUR)) "Long meeting")] in
  runs l = true
  /\ in_day (after l) 0 (ymd2ord 2005 4 13) = Ok [(at_ 2005 4 13 14 0, Some (10 * HOUR))]
  /\ in_day (after l) 0 (ymd2ord 2005 4 14) = Ok [(day_ 2005 4 14, Some (13 * HOUR))].
Proof. vm_compute. repeat split. Qed.

(** * test_cal.py *)

Example test_getOccurrences :
  let l := [person "martijn" "Martijn";
            creates "martijn" (plan (at_ 2005 4 10 16 0) (Some (10 * HOUR)) "Martijn's Meeting")] in
  runs l = true
  /\ how_many (happens (after l) "martijn" (between (day_ 2005 4 11) (day_ 2005 4 14))) = Ok 1%nat
  /\ how_many (happens (after l) "martijn" (between (day_ 2005 4 7) (day_ 2005 4 11))) = Ok 1%nat.
Proof. vm_compute. repeat split. Qed.

Example test_attendeeManagement :
  let l := [OCalendar; person "martijn" "Martijn"; person "guido" "Guido";
            OAddAttendee 0 (Some "martijn"%string); OAddAttendee 0 (Some "guido"%string)] in
  let l' := l ++ [ORemoveAttendee 0 (Some "martijn"%string)] in
  runs l' = true /\ main_attendee (after l) 0 = Ok (Some "martijn"%string)
  /\ main_attendee (after l') 0 = Ok (Some "guido"%string).
Proof. vm_compute. repeat split. Qed.

Example test_searchCriteria :
  let l := [person "martijn" "Martijn";
            creates "martijn" (plan (at_ 2005 4 10 16 0) (Some HOUR) "Martijn's Meeting");
            person "guido" "Guido";
            creates "guido" (plan (at_ 2005 4 10 16 0) (Some HOUR) "Martijn's Meeting")] in
  let sc a := Some (mk_criteria a None None None None) in
  runs l = true
  /\ how_many (get_events (stored (after l)) (None, None) (sc (AOne (Some "martijn"%string)))) = Ok 1%nat
  /\ how_many (get_events (stored (after l)) (None, None)
                 (sc (AMany [Some "martijn"; Some "guido"]%string))) = Ok 2%nat.
Proof. vm_compute. repeat split. Qed.

(** * doc/usecase.txt *)

(** usecase.txt 29-64 *)
Definition usecase : list op :=
  [person "martijn" "Martijn"; person "florent" "Florent"; person "bob" "Bob"; room "room1" "Room 1";
   creates "florent" (plan (at_ 2005 4 10 16 0) (Some (60 * MINUTE)) "Florent's Meeting")]%string.
(** usecase.txt 68 *)
Definition april : period := between (day_ 2005 4 1) (day_ 2005 5 1).
(** usecase.txt 93 *)
Definition usecase_invited : list op :=
  (usecase ++ [OInvite 0 [Some "room1"; Some "martijn"; Some "bob"]%string]).
(** usecase.txt 126 *)
Definition usecase_accepted : list op :=
  (usecase_invited ++ [OSetStatus 0 (Some "martijn") (Some "ACCEPTED")]%string).
(** cal.SearchCriteria(participation_status='NEEDS-ACTION'), usecase.txt 113 *)
Definition action : option criteria :=
  Some (mk_criteria ANone (Some "NEEDS-ACTION"%string) None None None).

Example usecase_txt_created :
  runs usecase = true
  /\ seen (after usecase) "florent" april None = Ok ["Florent's Meeting"%string]
  /\ get_status (obj (after usecase) 0) (Some "florent"%string) = Ok (Some "ACCEPTED"%string)
  /\ map (fun a => seen (after usecase) a april None) ["martijn"; "bob"; "room1"]%string
     = [Ok []; Ok []; Ok []].
Proof. vm_compute. repeat split. Qed.

Example usecase_txt_invited :
  runs usecase_invited = true
  /\ map (fun a => seen (after usecase_invited) a april None) ["martijn"; "bob"; "room1"]%string
     = [Ok ["Florent's Meeting"%string]; Ok ["Florent's Meeting"%string]; Ok ["Florent's Meeting"%string]]
  /\ map (fun a => get_status (obj (after usecase_invited) 0) (Some a)) ["martijn"; "bob"]%string
     = [Ok (Some "NEEDS-ACTION"%string); Ok (Some "NEEDS-ACTION"%string)]
  /\ seen (after usecase_invited) "martijn" april action = Ok ["Florent's Meeting"%string].
Proof. vm_compute. repeat split. Qed.

Example usecase_txt_accepted :
  let l := usecase_accepted ++ [OInvite 0 [Some "martijn"%string]] in
  let l' := l ++ [ODelete 0] in
  runs l' = true
  /\ get_status (obj (after usecase_accepted) 0) (Some "martijn"%string) = Ok (Some "ACCEPTED"%string)
  /\ seen (after usecase_accepted) "martijn" april action = Ok []
  /\ get_status (obj (after l) 0) (Some "martijn"%string) = Ok (Some "ACCEPTED"%string)
  /\ (let* x := organized_events (stored (after l)) (Some "florent"%string) None in Ok (map e_title x))
     = Ok ["Florent's Meeting"%string]
  /\ organized_events (stored (after l')) (Some "florent"%string) None = Ok [].
Proof. vm_compute. repeat split. Qed.

(** * doc/calendar.txt *)

(** calendar.txt 16-36 *)
Definition calendar_a : list op :=
  [person "martijn" "Martijn"; person "lennart" "Lennart";
   creates "martijn" (plan (at_ 2005 2 23 10 0) (Some (60 * MINUTE)) "Event A");
   OCalendar; OAddAttendee 0 (Some "martijn"%string)]%string.
(** calendar.txt 57-84 *)
Definition calendar_b : list op :=
  calendar_a ++
  [OInvite 0 [Some "lennart"]; OCalendar; OAddAttendee 1 (Some "lennart");
   OCalendar; OAddAttendee 2 (Some "lennart"); OAddAttendee 2 (Some "martijn");
   creates "lennart" (plan (at_ 2005 2 24 10 0) (Some (60 * MINUTE)) "Event B");
   creates "martijn" (plan (at_ 2005 2 25 10 0) (Some (60 * MINUTE)) "Event C")]%string.
(** calendar.getEvents(period), calendar.txt 41 *)
Definition listed (s : system) (c : nat) (p : period) : res (list string) :=
  let* l := cal_events s c p None in Ok (map e_title l).
(** february, calendar.txt 40 *)
Definition february : period := between (day_ 2005 2 1) (day_ 2005 3 1).

Example calendar_txt :
  runs calendar_b = true
  /\ listed (after calendar_a) 0 february = Ok ["Event A"]%string
  /\ (let* atts := cal_attendees (after calendar_a) 0 in
      let* l := calendar_events_in_day (stored (after calendar_a)) atts (ymd2ord 2005 2 23) None in
      Ok (map e_title l)) = Ok ["Event A"]%string
  /\ listed (after (firstn 8 calendar_b)) 1 february = Ok ["Event A"]%string
  /\ listed (after calendar_b) 0 february = Ok ["Event A"; "Event C"]%string
  /\ listed (after calendar_b) 1 february = Ok ["Event A"; "Event B"]%string
  /\ listed (after calendar_b) 2 february = Ok ["Event A"; "Event B"; "Event C"]%string.
Proof. vm_compute. repeat split. Qed.

(** * doc/attendee.txt *)

(** attendee.txt 18-32 *)
Definition attendee_a : list op :=
  [person "martijn" "Martijn"; person "lennart" "Lennart";
   creates "martijn" (plan (at_ 2005 2 10 14 0) (Some (60 * MINUTE)) "An event")]%string.
(** attendee.txt 61 *)
Definition attendee_b : list op := attendee_a ++ [OSetRole 0 (Some "martijn") "CHAIR"]%string.
(** attendee.txt 71 *)
Definition attendee_c : list op := attendee_b ++ [OInvite 0 [Some "lennart"]]%string.
(** attendee.txt 84 *)
Definition attendee_d : list op := attendee_c ++ [OSetStatus 0 (Some "lennart") None]%string.

Example attendee_txt_first :
  let e := obj (after attendee_a) 0 in
  runs attendee_d = true
  /\ get_role e (Some "martijn"%string) = Ok (Some "REQ-PARTICIPANT"%string)
  /\ get_attendee_ids e None None = Ok ["martijn"]%string
  /\ get_attendee_ids e None (Some "REQ-PARTICIPANT"%string) = Ok ["martijn"]%string
  /\ get_attendee_ids e (Some "ACCEPTED"%string) None = Ok ["martijn"]%string
  /\ get_role e (Some "lennart"%string) = Ok None.
Proof. vm_compute. repeat split. Qed.

Example attendee_txt_chair :
  let e := obj (after attendee_b) 0 in
  get_role e (Some "martijn"%string) = Ok (Some "CHAIR"%string)
  /\ get_attendee_ids e None (Some "REQ-PARTICIPANT"%string) = Ok []
  /\ get_attendee_ids e None (Some "CHAIR"%string) = Ok ["martijn"]%string.
Proof. vm_compute. repeat split. Qed.

Example attendee_txt_invited :
  let e := obj (after attendee_c) 0 in
  get_role e (Some "lennart"%string) = Ok (Some "REQ-PARTICIPANT"%string)
  /\ get_attendee_ids e None None = Ok ["martijn"; "lennart"]%string
  /\ get_attendee_ids e None (Some "REQ-PARTICIPANT"%string) = Ok ["lennart"]%string.
Proof. vm_compute. repeat split. Qed.

Example attendee_txt_removed :
  let e := obj (after attendee_d) 0 in
  has_attendee e (Some "lennart"%string) = Ok false
  /\ get_status e (Some "lennart"%string) = Ok None
  /\ get_role e (Some "lennart"%string) = Ok None
  /\ get_attendee_ids e None None = Ok ["martijn"]%string.
Proof. vm_compute. repeat split. Qed.

(** * doc/category.txt *)

(** the first event, category.txt 26-29, with its categories assigned as at 34-44 *)
Definition first_event (cats : list string) : spec :=
  filed (plan (at_ 2005 2 10 14 0) (Some (60 * MINUTE)) "An Event") cats.
(** category.txt 19-72 *)
Definition category : list op :=
  [person "martijn" "Martijn"; person "lennart" "Lennart";
   creates "martijn" (first_event []); OAssign 0 (first_event ["HOLIDAY"]);
   OAssign 0 (first_event ["HOLIDAY"; "APPOINTMENT"]); OAssign 0 (first_event ["APPOINTMENT"]);
   creates "martijn" (filed (plan (at_ 2005 2 10 15 0) (Some (60 * MINUTE)) "Second Event") ["HOLIDAY"]);
   creates "martijn" (filed (plan (at_ 2005 2 10 16 0) (Some (60 * MINUTE)) "Third Event") ["APPOINTMENT"]);
   creates "martijn" (filed (plan (at_ 2005 2 10 17 0) (Some (60 * MINUTE)) "Fourth Event")
                            ["HOLIDAY"; "APPOINTMENT"]);
   creates "martijn" (plan (at_ 2005 2 10 18 0) (Some (60 * MINUTE)) "Fifth Event")]%string.
(** cal.SearchCriteria(categories=...), category.txt 82 *)
Definition cats (l : list string) : option criteria := Some (mk_criteria ANone None None (Some l) None).

Example category_txt :
  runs category = true
  /\ in_category (obj (after (firstn 4 category)) 0) "HOLIDAY" = true
  /\ in_category (obj (after category) 0) "HOLIDAY" = false
  /\ e_categories (obj (after category) 0) = ["APPOINTMENT"]%string
  /\ seen (after category) "martijn" february (cats ["HOLIDAY"]%string)
     = Ok ["Second Event"; "Fourth Event"]%string
  /\ seen (after category) "martijn" february (cats ["APPOINTMENT"]%string)
     = Ok ["An Event"; "Third Event"; "Fourth Event"]%string
  /\ seen (after category) "martijn" february (cats ["APPOINTMENT"; "HOLIDAY"]%string)
     = Ok ["An Event"; "Second Event"; "Third Event"; "Fourth Event"]%string
  /\ seen (after category) "martijn" february None
     = Ok ["An Event"; "Second Event"; "Third Event"; "Fourth Event"; "Fifth Event"]%string
  /\ seen (after category) "martijn" february (Some null_criteria)
     = Ok ["An Event"; "Second Event"; "Third Event"; "Fourth Event"; "Fifth Event"]%string.
Proof. vm_compute. repeat split. Qed.

(** * doc/recurrence.txt *)

(** a rule of a kind with an until date and nothing else, recurrence.txt 34 and 70 *)
Definition every (k : kind) (until : option dval) : rule := mkRule k 1 None until [] [] "monthday".
(** recurrence.txt 19-39 *)
Definition recurring : list op :=
  [person "martijn" "Martijn"; person "lennart" "Lennart";
   creates "martijn" (plan (at_ 2005 3 2 16 0) (Some (60 * MINUTE)) "An event");
   creates "martijn" (repeating (plan (at_ 2005 3 1 15 0) (Some (60 * MINUTE)) "Recurrent event")
                                (every KDaily (Some (VDate (ymd2ord 2005 3 31)))))]%string.
(** recurrence.txt 70-75 *)
Definition recurring2 : list op :=
  recurring ++
  [creates "martijn" (repeating (plan (at_ 2005 4 3 15 0) (Some (30 * MINUTE)) "Recurrent event (2)")
                                (every KWeekly (Some (VDate (ymd2ord 2005 5 1)))))]%string.
(** range(1, n + 1), recurrence.txt 60 *)
Definition upto (n : nat) : list Z := map Z.of_nat (seq 1 n).
(** the number of occurrences of each day of a month, recurrence.txt 59-63 *)
Definition per_day (s : system) (m : Z) (n : nat) : list (res nat) :=
  map (fun i => how_many (happens s "martijn" (between (day_ 2005 m i) (day_ 2005 m i + DAY)))) (upto n).

Example recurrence_txt :
  let march := between (day_ 2005 3 1) (day_ 2005 4 1) in
  runs recurring2 = true
  /\ mk_rule KDaily 1 None (Some (VDate (ymd2ord 2005 3 31))) [] [] "monthday"
     = Ok (every KDaily (Some (VDate (ymd2ord 2005 3 31))))
  /\ how_many (seen (after recurring) "martijn" march None) = Ok 2%nat
  /\ how_many (happens (after recurring) "martijn" march) = Ok 32%nat
  /\ per_day (after recurring) 3 31
     = map (@Ok nat) [1;2;1;1;1;1;1;1;1;1;1;1;1;1;1;1;1;1;1;1;1;1;1;1;1;1;1;1;1;1;1]%nat
  /\ per_day (after recurring2) 4 30
     = map (@Ok nat) [0;0;1;0;0;0;0;0;0;1;0;0;0;0;0;0;1;0;0;0;0;0;0;1;0;0;0;0;0;0]%nat.
Proof. vm_compute. repeat split. Qed.

(** * doc/allday.txt *)

(** allday.txt 18-117 *)
Definition wholedays : list op :=
  [person "martijn" "Martijn";
   creates "martijn" (whole_day (plan (day_ 2005 4 10) None "All day extravaganza"));
   creates "martijn" (whole_day (plan (day_ 2005 5 1) (Some DAY) "Entire day"));
   creates "martijn" (whole_day (plan (day_ 2006 10 1) (Some (3 * DAY)) "New"));
   creates "martijn" (repeating (whole_day (plan (day_ 2005 6 5) (Some DAY) "Sunday")) (every KWeekly None))]%string.
(** len and title of what a search finds, allday.txt 33-39 *)
Definition found (n : nat) (b e : Z) : res (list string) :=
  seen (after (firstn n wholedays)) "martijn" (between b e) None.

Example allday_txt_events :
  runs wholedays = true
  /\ found 2 (day_ 2005 4 1) (day_ 2005 4 12) = Ok ["All day extravaganza"]%string
  /\ found 2 (day_ 2005 4 10) (day_ 2005 4 11) = Ok ["All day extravaganza"]%string
  /\ e_duration (obj (after wholedays) 0) = Some DAY
  /\ found 2 (day_ 2005 4 1) (day_ 2005 4 10) = Ok []
  /\ found 2 (day_ 2005 4 11) (day_ 2005 4 12) = Ok []
  /\ found 3 (day_ 2005 5 1) (day_ 2005 5 2) = Ok ["Entire day"]%string
  /\ e_duration (obj (after wholedays) 1) = Some DAY
  /\ e_duration (obj (after wholedays) 2) = Some (3 * DAY)
  /\ found 4 (day_ 2006 9 1) (day_ 2006 11 1) = Ok ["New"]%string.
Proof. vm_compute. repeat split. Qed.

Example allday_txt_occurrences :
  happens (after (firstn 3 wholedays)) "martijn" (between (day_ 2005 4 1) (day_ 2005 6 1))
  = Ok [day_ 2005 4 10; day_ 2005 5 1]
  /\ happens (after wholedays) "martijn" (between (day_ 2005 6 1) (day_ 2005 7 1))
     = Ok [day_ 2005 6 5; day_ 2005 6 12; day_ 2005 6 19; day_ 2005 6 26].
Proof. vm_compute. repeat split. Qed.

(** * doc/meeting.txt *)

(** meeting.txt 17-55 *)
Definition busy_people : list op :=
  [person "martijn" "Martijn"; person "lennart" "Lennart"; person "florent" "Florent";
   person "eric" "Eric";
   creates "martijn" (plan (day_ 2005 3 10) (Some DAY) "Martijn's day off");
   creates "florent" (plan (at_ 2005 3 9 15 0) (Some (120 * MINUTE)) "Some meeting");
   creates "eric" (plan (at_ 2005 3 9 10 0) (Some (90 * MINUTE)) "Another meeting");
   creates "lennart" (plan (at_ 2005 3 11 11 0) (Some (60 * MINUTE)) "Yet another meeting");
   creates "martijn" (plan (at_ 2005 3 9 15 30) (Some (30 * MINUTE)) "Another overlapping meeting");
   OInvite 2 [Some "lennart"; Some "florent"]; OInvite 3 [Some "florent"]]%string.
(** meeting.txt 59 *)
Definition people : list string := ["martijn"; "lennart"; "florent"; "eric"]%string.

Example meeting_txt_blocked :
  runs busy_people = true
  /\ get_blocked plenty (stored (after busy_people)) (map Some people)
       (day_ 2005 3 9) (day_ 2005 3 12) (9 * HOUR) (17 * HOUR)
     = Ok [(at_ 2005 3 9 0 0, at_ 2005 3 9 9 0); (at_ 2005 3 9 10 0, at_ 2005 3 9 11 30);
           (at_ 2005 3 9 15 0, at_ 2005 3 11 9 0); (at_ 2005 3 11 11 0, at_ 2005 3 11 12 0);
           (at_ 2005 3 11 17 0, at_ 2005 3 12 0 0)].
Proof. vm_compute. repeat split. Qed.

Example meeting_txt_free :
  gaps (after busy_people) people (day_ 2005 3 9) (day_ 2005 3 12) None
  = Ok [(at_ 2005 3 9 9 0, at_ 2005 3 9 10 0); (at_ 2005 3 9 11 30, at_ 2005 3 9 15 0);
        (at_ 2005 3 11 9 0, at_ 2005 3 11 11 0); (at_ 2005 3 11 12 0, at_ 2005 3 11 17 0)].
Proof. vm_compute. reflexivity. Qed.

(** meeting.txt 123-145 *)
Definition one_day : list op :=
  busy_people ++
  [ODelete 0; ODelete 1; ODelete 2; ODelete 3; ODelete 4;
   creates "martijn" (plan (at_ 2005 3 9 9 0) (Some (60 * MINUTE)) "A");
   creates "martijn" (plan (at_ 2005 3 9 10 15) (Some (60 * MINUTE)) "B");
   creates "martijn" (plan (at_ 2005 3 9 12 0) (Some (90 * MINUTE)) "C");
   creates "martijn" (plan (at_ 2005 3 9 16 0) (Some (120 * MINUTE)) "D")]%string.

Example meeting_txt_deleted :
  runs one_day = true
  /\ get_events (stored (after (firstn 16 one_day))) (between (day_ 2005 3 9) (day_ 2005 3 12)) None = Ok [].
Proof. vm_compute. repeat split. Qed.

Example meeting_txt_minimal :
  let free minimal := gaps (after one_day) ["martijn"%string] (day_ 2005 3 9) (day_ 2005 3 10) minimal in
  free None = Ok [(at_ 2005 3 9 10 0, at_ 2005 3 9 10 15); (at_ 2005 3 9 11 15, at_ 2005 3 9 12 0);
                  (at_ 2005 3 9 13 30, at_ 2005 3 9 16 0)]
  /\ free (Some (30 * MINUTE)) = Ok [(at_ 2005 3 9 11 15, at_ 2005 3 9 12 0);
                                     (at_ 2005 3 9 13 30, at_ 2005 3 9 16 0)]
  /\ free (Some (60 * MINUTE)) = Ok [(at_ 2005 3 9 13 30, at_ 2005 3 9 16 0)]
  /\ free (Some (180 * MINUTE)) = Ok [].
Proof. vm_compute. repeat split. Qed.

(** meeting.txt 206-209 *)
Definition one_daily : list op :=
  one_day ++ [creates "martijn" (repeating (plan (at_ 2005 6 9 11 0) (Some (60 * MINUTE)) "A")
                                           (every KDaily None))]%string.
(** meeting.txt 231-319 *)
Definition more_days : list op :=
  one_daily ++
  [ODelete 9;
   creates "martijn" (plan (at_ 2005 7 9 11 0) (Some (60 * MINUTE)) "A");
   creates "martijn" (whole_day (plan (day_ 2005 7 11) (Some DAY) "B"));
   creates "martijn" (plan (at_ 2005 8 9 14 0) (Some (23 * HOUR)) "A");
   creates "martijn" (plan (at_ 2005 9 9 14 0) (Some (47 * HOUR)) "A");
   creates "martijn" (see_through (plan (at_ 2006 1 1 14 0) (Some (4 * HOUR)) "A"))]%string.

Example meeting_txt_recurrence :
  gaps (after one_daily) ["martijn"%string] (day_ 2005 6 9) (day_ 2005 6 11) None
  = Ok [(at_ 2005 6 9 9 0, at_ 2005 6 9 11 0); (at_ 2005 6 9 12 0, at_ 2005 6 9 17 0);
        (at_ 2005 6 10 9 0, at_ 2005 6 10 11 0); (at_ 2005 6 10 12 0, at_ 2005 6 10 17 0)].
Proof. vm_compute. reflexivity. Qed.

Example meeting_txt_more :
  let free b e := gaps (after more_days) ["martijn"%string] b e None in
  runs more_days = true
  /\ free (day_ 2005 7 9) (day_ 2005 7 13)
     = Ok [(at_ 2005 7 9 9 0, at_ 2005 7 9 11 0); (at_ 2005 7 9 12 0, at_ 2005 7 9 17 0);
           (at_ 2005 7 10 9 0, at_ 2005 7 10 17 0); (at_ 2005 7 12 9 0, at_ 2005 7 12 17 0)]
  /\ free (day_ 2005 8 9) (day_ 2005 8 12)
     = Ok [(at_ 2005 8 9 9 0, at_ 2005 8 9 14 0); (at_ 2005 8 10 13 0, at_ 2005 8 10 17 0);
           (at_ 2005 8 11 9 0, at_ 2005 8 11 17 0)]
  /\ free (day_ 2005 9 9) (day_ 2005 9 12)
     = Ok [(at_ 2005 9 9 9 0, at_ 2005 9 9 14 0); (at_ 2005 9 11 13 0, at_ 2005 9 11 17 0)]
  /\ free (day_ 2006 1 1) (day_ 2006 1 2) = Ok [(at_ 2006 1 1 9 0, at_ 2006 1 1 17 0)].
Proof. vm_compute. repeat split. Qed.

(** * test_ical.py *)

(** AyeCalTestCase.setUp, test_ical.py 7-34 *)
Definition two_meetings : list op :=
  [OCalendar; person "martijn" "Martijn"; OAddAttendee 0 (Some "martijn");
   creates "martijn" (placed (plan (at_ 2005 4 10 16 0) (Some (60 * MINUTE)) "Martijn's Meeting") "Room 1" None);
   creates "martijn" (filed (placed (plan (at_ 2005 4 11 17 0) (Some (45 * MINUTE)) "Another meeting")
                                    "Room 2" (Some "/path/to/some/document"))
                            ["Public Holiday"; "Wonderful Event"])]%string.
(** RecurrentImportExportTestCase.setUp and that of AllDay..., test_ical.py 404-412, 703-709 *)
Definition no_meeting : list op :=
  [OCalendar; person "martijn" "Martijn"; OAddAttendee 0 (Some "martijn")]%string.

(** export, the text, and the components read back, test_ical.py 38-40 *)
Definition text_of (s : system) : list vevent :=
  match export_cal s 0 (None, None) None with Ok l => map wire l | _ => [] end.
(** import_(text), test_ical.py 40 *)
Definition reads (l : list vevent) : op := OImport 0 (Ok (Some l)) (None, None) None false.
(** text.replace(...) on the component with a given title, test_ical.py 70 *)
Definition on_title (t : string) (f : vevent -> vevent) (l : list vevent) : list vevent :=
  map (fun v => match v_summary v with Some x => if String.eqb x t then f v else v | None => v end) l.
(** a component with new SUMMARY, test_ical.py 70 *)
Definition v_retitle (t : string) (v : vevent) : vevent :=
  mkV (v_uid v) (v_dtstart v) (v_dtend v) (v_duration v) (Some t) (v_description v) (v_location v)
      (v_status v) (v_organizer v) (v_attendees v) (v_categories v) (v_transp v) (v_class v)
      (v_attach v) (v_rrule v).
(** a component with new times, test_ical.py 87-88, 155-156 *)
Definition v_retime (s e : option ical_time) (d : option Z) (v : vevent) : vevent :=
  mkV (v_uid v) s e d (v_summary v) (v_description v) (v_location v)
      (v_status v) (v_organizer v) (v_attendees v) (v_categories v) (v_transp v) (v_class v)
      (v_attach v) (v_rrule v).
(** a component with a new UID, test_ical.py 134 *)
Definition v_rename (u : string) (v : vevent) : vevent :=
  mkV (Some u) (v_dtstart v) (v_dtend v) (v_duration v) (v_summary v) (v_description v) (v_location v)
      (v_status v) (v_organizer v) (v_attendees v) (v_categories v) (v_transp v) (v_class v)
      (v_attach v) (v_rrule v).
(** a component with STATUS, CATEGORIES, TRANSP, CLASS and RRULE replaced, test_ical.py 190, 224, 315, 334, 389 *)
Definition v_reset (st : option string) (ca : list string) (tr cl : option string) (rr : option rrule)
  (v : vevent) : vevent :=
  mkV (v_uid v) (v_dtstart v) (v_dtend v) (v_duration v) (v_summary v) (v_description v) (v_location v)
      st (v_organizer v) (v_attendees v) ca tr cl (v_attach v) rr.
(** the new_event texts of test_ical.py 101-108 and elsewhere: UID:hoi *)
Definition hoi (s : ical_time) (e : option ical_time) (d : option Z) (title place : string)
  (st : option string) (ca : list string) (tr cl : option string) (rr : option rrule) : vevent :=
  mkV (Some "hoi"%string) (Some s) e d (Some title) None (Some place) st None [] ca tr cl None rr.
(** FREQ=f;INTERVAL=1 and more, test_ical.py 175 *)
Definition freq (f : string) (count : option Z) (until : option dval) (byday : option (list string)) : rrule :=
  mkRR (Some [f]) (Some [1]) (match count with Some c => Some [c] | None => None end)
       (match until with Some u => Some [u] | None => None end) byday.

(** the ids of the two meetings, test_ical.py 33-34 *)
Definition uid1 : string := e_uid (obj (after two_meetings) 0).
(** test_ical.py 34 *)
Definition uid2 : string := e_uid (obj (after two_meetings) 1).
(** self._calendar.getEvent(uid), test_ical.py 45-46 *)
Definition got (s : system) (uid : string) : option event :=
  match get_event s uid with Ok r => Some (obj s r) | _ => None end.
(** the state after importing components on top of earlier calls, test_ical.py 40 *)
Definition reread (l : list op) (vs : list vevent) : list op := l ++ [reads vs].
(** the exported text of the two meetings, test_ical.py 38 *)
Definition text : list vevent := text_of (after two_meetings).

Example test_export_import1 :
  let s := after (reread two_meetings text) in
  runs (reread two_meetings text) = true /\ List.length text = 2%nat
  /\ s = after two_meetings
  /\ option_map e_title (got s uid1) = Some "Martijn's Meeting"%string
  /\ option_map e_title (got s uid2) = Some "Another meeting"%string
  /\ option_map e_dtstart (got s uid1) = Some (at_ 2005 4 10 16 0)
  /\ option_map e_dtstart (got s uid2) = Some (at_ 2005 4 11 17 0)
  /\ option_map e_categories (got s uid2) = Some ["Public Holiday"; "Wonderful Event"]%string
  /\ option_map e_document (got s uid1) = Some None
  /\ option_map e_document (got s uid2) = Some (Some "/path/to/some/document"%string).
Proof. vm_compute. repeat split. Qed.

Example test_export_import2 :
  let l := reread two_meetings (on_title "Martijn's Meeting" (v_retitle "Foo's Meeting") text) in
  runs l = true
  /\ option_map e_title (got (after l) uid1) = Some "Foo's Meeting"%string
  /\ option_map e_title (got (after l) uid2) = Some "Another meeting"%string.
Proof. vm_compute. repeat split. Qed.

Example test_export_import_change_datetime :
  let l := reread two_meetings
             (on_title "Another meeting"
                (fun v => v_retime (Some (IFloat (at_ 2005 4 12 18 0))) (v_dtend v) (v_duration v) v) text) in
  runs l = true /\ option_map e_dtstart (got (after l) uid2) = Some (at_ 2005 4 12 18 0).
Proof. vm_compute. repeat split. Qed.

Example test_export_import_new_event :
  let l := reread two_meetings
             (text ++ [hoi (IFloat (at_ 2005 5 1 16 0)) None (Some HOUR) "Inserted meeting" "Room 3"
                           None [] None None None]) in
  let e := got (after l) "hoi" in
  runs l = true
  /\ option_map e_title e = Some "Inserted meeting"%string
  /\ option_map e_location e = Some "Room 3"%string
  /\ option_map e_dtstart e = Some (at_ 2005 5 1 16 0)
  /\ option_map e_duration e = Some (Some HOUR).
Proof. vm_compute. repeat split. Qed.

Example test_export_import_remove_event :
  let l := two_meetings
             ++ [OImport 0 (Ok (Some (on_title "Martijn's Meeting" (v_rename "dag") text)))
                         (None, None) None true] in
  runs l = true
  /\ has_event (after l) uid1 = false /\ has_event (after l) uid2 = true
  /\ has_event (after l) "dag" = true.
Proof. vm_compute. repeat split. Qed.

Example test_export_import_duration :
  let l := reread two_meetings
             (on_title "Another meeting" (fun v => v_retime (v_dtstart v) None (Some (75 * MINUTE)) v) text) in
  runs l = true /\ option_map e_duration (got (after l) uid2) = Some (Some (75 * MINUTE)).
Proof. vm_compute. repeat split. Qed.

(** the calendar's getOccurrences, test_ical.py 180 *)
Definition occurs (s : system) (p : period) : res (list Z) :=
  let* atts := cal_attendees s 0 in
  let* l := calendar_occurrences plenty (stored s) atts p None in Ok (map o_dtstart l).
(** test_ical.py 180-181 *)
Definition early_april : period := between (day_ 2005 4 1) (day_ 2005 4 14).
(** RRULE:FREQ=DAILY;INTERVAL=1, test_ical.py 175 *)
Definition daily : rrule := freq "DAILY" None None None.

Example test_export_import_recurrence :
  let l := reread two_meetings
             (text ++ [hoi (IFloat (at_ 2005 4 6 16 0)) None (Some HOUR) "Inserted meeting" "Room Foo"
                           None [] None None (Some daily)]) in
  runs l = true /\ how_many (occurs (after l) early_april) = Ok 10%nat.
Proof. vm_compute. repeat split. Qed.

Example test_export_import_recurrence2_unrecur :
  let l := reread two_meetings
             (on_title "Martijn's Meeting"
                (fun v => v_reset (v_status v) (v_categories v) (v_transp v) (v_class v) (Some daily) v) text) in
  let l' := reread l text in
  runs l' = true /\ how_many (occurs (after l) early_april) = Ok 5%nat
  /\ how_many (occurs (after l') early_april) = Ok 2%nat.
Proof. vm_compute. repeat split. Qed.

Example test_status :
  let l := reread two_meetings
             (map (fun v => v_reset (Some "CONFIRMED"%string) (v_categories v) (v_transp v) (v_class v)
                                    (v_rrule v) v) text) in
  runs l = true /\ option_map e_status (got (after l) uid1) = Some "CONFIRMED"%string
  /\ option_map e_status (got (after l) uid2) = Some "CONFIRMED"%string.
Proof. vm_compute. repeat split. Qed.

Example test_new_component :
  let l := reread two_meetings
             (text ++ [hoi (IFloat (at_ 2005 4 6 16 0)) None (Some HOUR) "Inserted meeting" "Room Foo"
                           (Some "CONFIRMED") ["HOLIDAY"; "MISC"] (Some "TRANSPARENT") (Some "PRIVATE") None]%string) in
  let e := got (after l) "hoi" in
  runs l = true
  (* test_status_add, 236-263 *)
  /\ option_map e_status (got (after l) uid1) = Some "TENTATIVE"%string
  /\ option_map e_status (got (after l) uid2) = Some "TENTATIVE"%string
  /\ option_map e_status e = Some "CONFIRMED"%string
  (* test_categories_new_event and its variant, 265-309 *)
  /\ option_map e_categories e = Some ["HOLIDAY"; "MISC"]%string
  (* test_transparent_new, 347-365; test_access_new, 367-384 *)
  /\ option_map e_transparent e = Some true
  /\ option_map e_access e = Some "PRIVATE"%string.
Proof. vm_compute. repeat split. Qed.

Example test_categories_existing_event :
  let l := reread two_meetings
             (on_title "Martijn's Meeting"
                (fun v => v_reset (v_status v) ["HOLIDAY"; "MISC"]%string (v_transp v) (v_class v) (v_rrule v) v)
                text) in
  runs l = true /\ option_map e_categories (got (after l) uid1) = Some ["HOLIDAY"; "MISC"]%string.
Proof. vm_compute. repeat split. Qed.

Example test_transparent :
  let turn x := if String.eqb x "OPAQUE" then "TRANSPARENT"%string else x in
  let l := reread two_meetings
             (map (fun v => v_reset (v_status v) (v_categories v) (option_map turn (v_transp v)) (v_class v)
                                    (v_rrule v) v) text) in
  runs l = true /\ option_map e_transparent (got (after l) uid1) = Some true
  /\ option_map e_transparent (got (after (reread two_meetings text)) uid1) = Some false.
Proof. vm_compute. repeat split. Qed.

Example test_access_change :
  let turn (to x : string) := if String.eqb x "PUBLIC" then to else x in
  let l (to : string) := reread two_meetings
             (map (fun v => v_reset (v_status v) (v_categories v) (v_transp v) (option_map (turn to) (v_class v))
                                    (v_rrule v) v) text) in
  runs (l "PRIVATE"%string) = true /\ runs (l "CONFIDENTIAL"%string) = true
  /\ option_map e_access (got (after (l "PRIVATE"%string)) uid1) = Some "PRIVATE"%string
  /\ option_map e_access (got (after (l "CONFIDENTIAL"%string)) uid1) = Some "CONFIDENTIAL"%string.
Proof. vm_compute. repeat split. Qed.

(** one component with UID:hoi in an otherwise empty calendar, test_ical.py 414-427 *)
Definition alone (s : ical_time) (e : option ical_time) (d : option Z) (rr : option rrule) : list op :=
  reread no_meeting [hoi s e d "Test meeting" "Room Foo" None [] None None rr].
(** 16:00 on a day, for an hour, with a rule, test_ical.py 417-425 *)
Definition hourly (y m d : Z) (rr : rrule) : list op :=
  alone (IFloat (at_ y m d 16 0)) None (Some HOUR) (Some rr).
(** the occurrences found, test_ical.py 428-430 *)
Definition when (l : list op) (b e : Z) : option (res (list Z)) :=
  match play init l with Some s => Some (occurs s (between b e)) | None => None end.
(** the number of occurrences found, test_ical.py 431 *)
Definition count_when (l : list op) (b e : Z) : option (res nat) := option_map how_many (when l b e).

Example test_daily_recurrence :
  count_when (hourly 2005 4 1 daily) (day_ 2005 4 1) (day_ 2005 4 10) = Some (Ok 9%nat)
  /\ count_when (hourly 2005 4 1 (freq "DAILY" None (Some (VDate (ymd2ord 2005 4 6))) None))
       (day_ 2005 4 1) (day_ 2005 4 10) = Some (Ok 6%nat)
  /\ count_when (hourly 2005 4 1 (freq "DAILY" (Some 4) None None)) (day_ 2005 4 1) (day_ 2005 4 10)
     = Some (Ok 4%nat).
Proof. vm_compute. repeat split. Qed.

Example test_yearly_recurrence_simple :
  count_when (hourly 2005 4 1 (freq "YEARLY" None None None)) (day_ 2005 3 1) (day_ 2010 4 10)
  = Some (Ok 6%nat).
Proof. vm_compute. reflexivity. Qed.

Example test_weekly_recurrence :
  when (hourly 2005 4 1 (freq "WEEKLY" None None None)) (day_ 2005 3 1) (day_ 2005 4 30)
  = Some (Ok (map (fun d => at_ 2005 4 d 16 0) [1; 8; 15; 22; 29]))
  /\ when (hourly 2005 4 1 (freq "WEEKLY" None None (Some ["MO"; "FR"]%string))) (day_ 2005 3 1) (day_ 2005 4 30)
     = Some (Ok (map (fun d => at_ 2005 4 d 16 0) [1; 4; 8; 11; 15; 18; 22; 25; 29])).
Proof. vm_compute. repeat split. Qed.

Example test_monthly_recurrence :
  count_when (hourly 2005 4 1 (freq "MONTHLY" None None None)) (day_ 2005 3 1) (day_ 2005 12 10)
  = Some (Ok 9%nat)
  /\ when (hourly 2005 4 1 (freq "MONTHLY" None None (Some ["MO"]%string))) (day_ 2005 3 1) (day_ 2005 8 4)
     = Some (Ok [at_ 2005 4 1 16 0; at_ 2005 5 6 16 0; at_ 2005 6 3 16 0; at_ 2005 7 1 16 0])
  /\ when (hourly 2005 4 20 (freq "MONTHLY" None None (Some ["-MO"]%string))) (day_ 2005 3 1) (day_ 2005 8 23)
     = Some (Ok [at_ 2005 4 20 16 0; at_ 2005 5 18 16 0; at_ 2005 6 22 16 0; at_ 2005 7 20 16 0]).
Proof. vm_compute. repeat split. Qed.

(** start and duration of the occurrences of May, test_ical.py 641-650 *)
Definition in_may (l : list op) : option (res (list (Z * option Z))) :=
  match play init l with
  | Some s => Some (let* atts := cal_attendees s 0 in
                    let* x := calendar_occurrences plenty (stored s) atts
                                (between (day_ 2005 5 1) (day_ 2005 6 1)) None in
                    Ok (map (fun o => (o_dtstart o, o_duration o)) x))
  | None => None
  end.

Example test_durations :
  (* test_no_duration_no_dtend_date *)
  in_may (alone (IDate (ymd2ord 2005 5 3)) None None None) = Some (Ok [(day_ 2005 5 3, Some DAY)])
  (* test_no_duration_no_dtend_datetime *)
  /\ in_may (alone (IFloat (at_ 2005 5 3 16 0)) None None None) = Some (Ok [(at_ 2005 5 3 16 0, Some 0)])
  (* test_duration_and_dtend *)
  /\ in_may (alone (IFloat (at_ 2005 5 3 16 0)) (Some (IFloat (at_ 2005 5 3 17 0))) (Some (2 * HOUR)) None)
     = Some (Ok [(at_ 2005 5 3 16 0, Some (3600 * SECOND))]).
Proof. vm_compute. repeat split. Qed.

(** create an all-day event, export, delete, import again: test_ical.py 711-730 *)
Definition there_and_back (d : option Z) : option (bool * option Z) :=
  let l := no_meeting ++ [creates "martijn" (whole_day (placed (plan (at_ 2005 4 10 16 0) d "Martijn's Meeting")
                                                               "Room 1" None))]%string in
  let uid := e_uid (obj (after l) 0) in
  let l' := reread (l ++ [ODelete 0]) (text_of (after l)) in
  if runs l' then option_map (fun e => (e_allday e, e_duration e)) (got (after l') uid) else None.

Example test_allday_export :
  there_and_back (Some DAY) = Some (true, Some DAY)
  /\ there_and_back None = Some (true, Some DAY)
  /\ there_and_back (Some (2 * DAY)) = Some (true, Some (2 * DAY)).
Proof. vm_compute. repeat split. Qed.
