{
 "claims": [
  {
   "property": "C01",
   "status": "proved",
   "theorems": [
    "C01_daily_exact",
    "C01_daily_exact_unbounded",
    "C01_C06_finished_is_exact",
    "C01_C06_finishes"
   ],
   "note": "Exact list, in order, whenever the next repetition after the end date is representable; also without an end date when count/until stop the rule."
  },
  {
   "property": "C02",
   "status": "proved",
   "theorems": [
    "C02_weekly_exact",
    "C02_weekly_exact_unbounded",
    "C01_C06_finished_is_exact",
    "C01_C06_finishes"
   ],
   "note": "Exact list, in order, for every end date before 9999-12-31."
  },
  {
   "property": "C03",
   "status": "proved",
   "theorems": [
    "C03_monthday_exact",
    "C03_monthday_exact_unbounded",
    "C03_monthday_exact_years",
    "C01_C06_finished_is_exact",
    "C01_C06_finishes"
   ],
   "note": "Exact list whenever a later repetition is representable."
  },
  {
   "property": "C04",
   "status": "partial",
   "theorems": [
    "C04_weekday_exact_partial",
    "C04_weekday_spill_exact",
    "C04_weekday_spill_exact_unbounded",
    "C04_fifth_weekday_refuted",
    "C01_C06_finished_is_exact",
    "C01_C06_finishes"
   ],
   "note": "Natural reading proved for starts on day 1..28; the fifth weekday spills into the next month (refuted witness) and its actual behaviour is characterised exactly for every start."
  },
  {
   "property": "C05",
   "status": "partial",
   "theorems": [
    "C05_lastweekday_exact_partial",
    "C05_lastweekday_spill_exact",
    "C05_lastweekday_spill_exact_unbounded",
    "C05_fifth_last_weekday_refuted",
    "C01_C06_finished_is_exact",
    "C01_C06_finishes"
   ],
   "note": "Natural reading proved for the last four weekdays; the fifth-last one spills into the previous month (refuted witness) and its actual behaviour is characterised exactly."
  },
  {
   "property": "C06",
   "status": "partial",
   "theorems": [
    "C06_finishes_iff",
    "C06_yearly_exact_partial",
    "C06_yearly_exact_unbounded_partial",
    "C06_leap_day_refuted",
    "C01_C06_finished_is_exact",
    "C01_C06_finishes"
   ],
   "note": "Proved for every start except 29 February, for which the code raises ValueError when a year stepped to has no such day (refuted witness); C06_finishes_iff says exactly when the expansion finishes."
  },
  {
   "property": "C07",
   "status": "proved",
   "theorems": [
    "C07_strictly_increasing"
   ],
   "note": "Every prefix of the iteration, every kind."
  },
  {
   "property": "C08",
   "status": "proved",
   "theorems": [
    "C08_enddate_truncates",
    "C08_norule_refuted"
   ],
   "note": "All repeating kinds. NoRecurrenceRule, which has a single date, ignores the end date (C08_norule_refuted)."
  },
  {
   "property": "C09",
   "status": "partial",
   "theorems": [
    "C09_ends_iff",
    "C09_stuck_exact",
    "C09_queries_end",
    "C09_stuck_query",
    "C09_terminates_partial",
    "C09_fuel_is_immaterial",
    "C09_interval_zero_refuted"
   ],
   "note": "Proved for every rule a constructor accepts. For any rule object at all, C09_ends_iff says exactly when an expansion ends: rules with INTERVAL=0 (which an import can produce) repeat their first day for ever unless count, until or end date cut them off. C09_queries_end and C09_stuck_query carry this over to queries."
  },
  {
   "property": "C10",
   "status": "proved",
   "theorems": [
    "C10_constructor",
    "C10_replace"
   ],
   "note": "Case analysis over all constructor arguments."
  },
  {
   "property": "C11",
   "status": "proved",
   "theorems": [
    "C11_equal_rules_interchangeable",
    "C11_equality_is_tuple_equality",
    "C11_equivalence"
   ],
   "note": "All rules."
  },
  {
   "property": "C12",
   "status": "proved",
   "theorems": [
    "C12_first_is_start",
    "C12_excluded_start",
    "C12_exceptions_never_produced",
    "C12_december_9999_refuted"
   ],
   "note": "All kinds; an n-th-last-weekday rule in December 9999 raises (C12_december_9999_refuted)."
  },
  {
   "property": "C13",
   "status": "proved",
   "theorems": [
    "C13_weekspan",
    "C13_weekspan_zero",
    "C13_weekspan_additive",
    "C13_weekspan_steps"
   ],
   "note": "Equal to the difference of ISO week indices; zero exactly within a week; additive; one per step of seven days."
  },
  {
   "property": "C14",
   "status": "proved",
   "theorems": [
    "C14_no_weekday",
    "C14_any_number",
    "C14_monthindex",
    "C14_monthindex_from_end",
    "C14_unique"
   ],
   "note": "The n-th weekday counted from the start or the end; the answer is the only such date; for numbers that do not exist in the month the day returned and the error raised are stated for every number (C14_any_number)."
  },
  {
   "property": "C15",
   "status": "proved",
   "theorems": [
    "C15_day_of_iso_week",
    "C15_iso_week_of_result",
    "C15_unique"
   ],
   "note": "Both directions between dates and (year, week, weekday); only one date has a given triple."
  },
  {
   "property": "C16",
   "status": "proved",
   "theorems": [
    "C16_weeks_in_year",
    "C16_week1_distance"
   ],
   "note": "Counted as the distance between the first weeks of consecutive years."
  },
  {
   "property": "C17",
   "status": "proved",
   "theorems": [
    "C17_same_instants"
   ],
   "note": "As sets of instants, for every list of periods."
  },
  {
   "property": "C18",
   "status": "proved",
   "theorems": [
    "C18_sorted_with_gaps",
    "C18_well_formed",
    "C18_nonempty",
    "C18_canonical",
    "C18_order_irrelevant",
    "C18_idempotent"
   ],
   "note": "Sorted with gaps, well-formed, independent of order and repetition, and the only such list for its instants."
  },
  {
   "property": "C19",
   "status": "proved",
   "theorems": [
    "C19_half_open_overlap",
    "C19_total",
    "C19_instant"
   ],
   "note": "Membership is overlap of half-open intervals, for every combination of open ends; zero-length periods are treated separately (C19_instant)."
  },
  {
   "property": "C20",
   "status": "proved",
   "theorems": [
    "C20_events_exact",
    "C20_each_once",
    "C20_any_iteration_order",
    "C20_unbounded",
    "C20_always_answers"
   ],
   "note": "Any list of stored events, any iteration order; an event without a duration makes a bounded query raise, so exactness is stated for events with one."
  },
  {
   "property": "C21",
   "status": "proved",
   "theorems": [
    "C21_occurrences_exact",
    "C21_each_once",
    "C21_any_iteration_order",
    "C21_terminates"
   ],
   "note": "Exact for all valid rules; termination given that the period's end is far enough from year 9999."
  },
  {
   "property": "C22",
   "status": "partial",
   "theorems": [
    "C22_events_in_day_exact",
    "C22_visible_iff",
    "C22_occurrences_in_day_exact",
    "C22_events_in_day_partial",
    "C22_visible_somewhere_partial",
    "C22_occurrences_in_day_partial",
    "C22_refuted"
   ],
   "note": "Exactly which events a day shows is proved (C22_visible_iff): all of positive length that overlap it, and instants strictly inside; an instant at midnight is in no day (C22_refuted)."
  },
  {
   "property": "C23",
   "status": "proved",
   "theorems": [
    "C23_same_instants",
    "C23_each_instant_once",
    "C23_one_by_one",
    "C23_total"
   ],
   "note": "As sets of instants; every instant of the result lies in exactly one piece of each occurrence."
  },
  {
   "property": "C24",
   "status": "proved",
   "theorems": [
    "C24_same_day",
    "C24_within_day_and_period"
   ],
   "note": "Each piece stays in one day and in the period asked for."
  },
  {
   "property": "C25",
   "status": "partial",
   "theorems": [
    "C25_pieces_exact",
    "C25_empty_iff",
    "C25_no_empty_segment_partial",
    "C25_no_empty_segment_refuted"
   ],
   "note": "The pieces are given exactly for every occurrence and period, and when a piece is empty (C25_pieces_exact, C25_empty_iff); refuted for an occurrence ending at a midnight strictly inside the period."
  },
  {
   "property": "C26",
   "status": "proved",
   "theorems": [
    "C26_blocked_exact",
    "C26_terminates"
   ],
   "note": "Exact; cancelled means the spelling 'CANCELED' checked by the code, see C31."
  },
  {
   "property": "C27",
   "status": "proved",
   "theorems": [
    "C27_blocked_sorted"
   ],
   "note": "The blocked list has the canonical form of C18."
  },
  {
   "property": "C28",
   "status": "partial",
   "theorems": [
    "C28_free_exact",
    "C28_kept_iff",
    "C28_free_instants_partial",
    "C28_whole_days_partial",
    "C28_after_closing_partial",
    "C28_refuted"
   ],
   "note": "The result is given exactly for every period (C28_free_exact: the free time, plus at most one artefact at either end), and so is when the claim holds (C28_kept_iff); false otherwise (C28_refuted)."
  },
  {
   "property": "C29",
   "status": "proved",
   "theorems": [
    "C29_minimal_filters"
   ],
   "note": "The answer with a minimal duration is the filtered answer without one."
  },
  {
   "property": "C30",
   "status": "proved",
   "theorems": [
    "C30_more_blocked",
    "C30_less_free",
    "C30_order_and_repetition"
   ],
   "note": "Monotone in the set of attendees; order and repetition of attendees do not matter."
  },
  {
   "property": "C31",
   "status": "partial",
   "theorems": [
    "C31_adds_exact",
    "C31_canceled_partial",
    "C31_refuted"
   ],
   "note": "Holds for 'CANCELED', false for 'CANCELLED' (C31_refuted); C31_adds_exact says exactly what one event adds to the blocked time."
  },
  {
   "property": "C32",
   "status": "proved",
   "theorems": [
    "C32_criteria_match",
    "C32_always_answers",
    "C32_as_given"
   ],
   "note": "A declarative reading of each criterion, that a match always answers, and the case of unset criteria."
  },
  {
   "property": "C33",
   "status": "partial",
   "theorems": [
    "C33_clone_partial",
    "C33_clone_exact",
    "C33_refuted"
   ],
   "note": "The code keeps the original's value where both are given (C33_refuted); what it does do is stated exactly (C33_clone_exact)."
  },
  {
   "property": "C34",
   "status": "partial",
   "theorems": [
    "C34_calendar_events_partial",
    "C34_calendar_occurrences_partial",
    "C34_calendar_exact_partial",
    "C34_add_attendee",
    "C34_remove_attendee",
    "C34_attendee_events_partial",
    "C34_refuted",
    "C34_calendar_exact",
    "C34_attendee_exact",
    "C34_occurrences_exact",
    "C34_attendee_occurrences_exact"
   ],
   "note": "Criteria naming their own attendees replace the calendar's (C34_refuted); which events are returned is stated exactly for any criteria (C34_*_exact)."
  },
  {
   "property": "C35",
   "status": "proved",
   "theorems": [
    "C35_allday_whole_days",
    "C35_other_events_unadjusted",
    "C35_adjust_idempotent"
   ],
   "note": "All events."
  },
  {
   "property": "C36",
   "status": "proved",
   "theorems": [
    "C36_invite",
    "C36_invite_notifies"
   ],
   "note": "Every history of operations."
  },
  {
   "property": "C37",
   "status": "partial",
   "theorems": [
    "C37_announced",
    "C37_who_can_change",
    "C37_only_that_attendee",
    "C37_status_and_notification",
    "C37_accepts_documented",
    "C37_rejects_unknown",
    "C37_replay_partial",
    "C37_replay_refuted"
   ],
   "note": "Every status set through setParticipationStatus is announced exactly once and replaying the notifications gives the status (C37_announced: exactly one notification per person iff the status changed, except a removal that raises KeyError); C37_who_can_change lists the operations that can change a status. Specifications and imports change it silently (refuted)."
  },
  {
   "property": "C38",
   "status": "partial",
   "theorems": [
    "C38_remove_exact",
    "C38_remove_refuted",
    "C38_remove_partial"
   ],
   "note": "Removal is given exactly (C38_remove_exact); removing someone without a role raises (refuted)."
  },
  {
   "property": "C39",
   "status": "partial",
   "theorems": [
    "C39_listing_role_iff",
    "C39_listing",
    "C39_listing_total",
    "C39_listing_role_refuted",
    "C39_listing_role_partial"
   ],
   "note": "Listing by role answers exactly when every participant kept by the status filter has a role (C39_listing_role_iff); otherwise it raises (refuted)."
  },
  {
   "property": "C40",
   "status": "partial",
   "theorems": [
    "C40_status_origin",
    "C40_roles",
    "C40_status_refuted",
    "C40_status_partial"
   ],
   "note": "Every status set through setParticipationStatus is documented; a specification or an imported text can set any string (refuted), and every undocumented status comes from one that gives it to that person (C40_status_origin)."
  },
  {
   "property": "C41",
   "status": "partial",
   "theorems": [
    "C41_compare_refuted",
    "C41_compare_by_start_partial"
   ],
   "note": "The comparison compares its own id with itself (refuted); what it computes instead is proved."
  },
  {
   "property": "C42",
   "status": "proved",
   "theorems": [
    "C42_map",
    "C42_create",
    "C42_create_succeeds",
    "C42_delete",
    "C42_others"
   ],
   "note": "Every history: the store behaves as a map from ids to events."
  },
  {
   "property": "C43",
   "status": "partial",
   "theorems": [
    "C43_same_id_iff",
    "C43_replaced_iff",
    "C43_unique_refuted",
    "C43_unique_without_deletion_partial",
    "C43_unique_by_time_partial"
   ],
   "note": "Two generated ids are equal exactly when clock second and store length agree (C43_same_id_iff, C43_replaced_iff), so an id can come back after a deletion within one second (refuted)."
  },
  {
   "property": "C44",
   "status": "partial",
   "theorems": [
    "C44_creator_exact",
    "C44_organized_events",
    "C44_creator_organizes",
    "C44_accepted_refuted",
    "C44_accepted_partial"
   ],
   "note": "Every history; the specification's own entry for the creator overrides the invitation (refuted); the creator's status and role are given exactly (C44_creator_exact)."
  },
  {
   "property": "C45",
   "status": "proved",
   "theorems": [
    "C45_import_frame",
    "C45_import_notices"
   ],
   "note": "Every import, successful or failing."
  },
  {
   "property": "C46",
   "status": "proved",
   "theorems": [
    "C46_plain_import_deletes_nothing",
    "C46_failed_import_deletes_nothing",
    "C46_sync_exact",
    "C46_creates_all"
   ],
   "note": "Every import with synchronization."
  },
  {
   "property": "C47",
   "status": "partial",
   "theorems": [
    "C47_roundtrip_refuted",
    "C47_roundtrip_partial",
    "C47_works_iff",
    "C47_reimport_exact",
    "C47_roundtrip_iff"
   ],
   "note": "Exactly when the round trip works, what is left of every event, which are announced, and that nothing changes iff all events are exportable; organizer, exceptions, weekdays and fractions of seconds are lost otherwise (refuted)."
  },
  {
   "property": "C48",
   "status": "partial",
   "theorems": [
    "C48_existing",
    "C48_new",
    "C48_new_missing_end",
    "C48_missing_end_refuted"
   ],
   "note": "All combinations of DTSTART, DTEND and DURATION for new events; a known event with a DATE start and no end keeps a wrong length (refuted)."
  },
  {
   "property": "C49",
   "status": "partial",
   "theorems": [
    "C49_will_modify_partial",
    "C49_no_means_no_change_partial",
    "C49_change_missed_refuted",
    "C49_spurious_change_refuted",
    "C49_raises_refuted",
    "C49_no_iff",
    "C49_raises_iff",
    "C49_answers",
    "C49_import_quiet",
    "C49_import_reports"
   ],
   "note": "When willModify answers no, and when it raises, is given exactly (C49_no_iff, C49_raises_iff); three ways in which that answer is wrong are refuted. An import changes and reports exactly what willModify says (C49_import_quiet, C49_import_reports)."
  },
  {
   "property": "C50",
   "status": "proved",
   "theorems": [
    "C50_private",
    "C50_private_content"
   ],
   "note": "Two events that differ only in private parts have the same private export; the visible parts are exact."
  },
  {
   "property": "C51",
   "status": "partial",
   "theorems": [
    "C51_idempotent",
    "C51_crlf_unchanged",
    "C51_repair_refuted",
    "C51_repair_partial",
    "C51_repair_exact"
   ],
   "note": "Idempotent for every text; what it does to any text is given exactly (C51_repair_exact); mixed line ends and a leading newline are not repaired (refuted)."
  },
  {
   "property": "C52",
   "status": "partial",
   "theorems": [
    "C52_works_iff",
    "C52_text_exact",
    "C52_odd_weekdays",
    "C52_raises",
    "C52_text_refuted",
    "C52_text_partial",
    "C52_text_injective_partial"
   ],
   "note": "An independent reader recovers the rule from its text; count 0, years before 1900, rules without frequency and times in exceptions are refuted. C52_works_iff, C52_raises and C52_text_exact say exactly when there is a text and what it says."
  },
  {
   "property": "C53",
   "status": "partial",
   "theorems": [
    "C53_failed_exact",
    "C53_atomic_refuted",
    "C53_unreadable_partial",
    "C53_first_component_partial"
   ],
   "note": "Refuted; what a failure leaves behind is given exactly (C53_failed_exact, property C71)."
  },
  {
   "property": "C54",
   "status": "partial",
   "theorems": [
    "C54_imports_iff",
    "C54_valid_iff",
    "C54_raises",
    "C54_rule_says",
    "C54_readable_imports",
    "C54_valid_partial",
    "C54_valid_refuted",
    "C54_interval_zero_refuted"
   ],
   "note": "Parts of the rule are preserved, and which RRULEs are accepted and which of them give valid rules is exact (C54_imports_iff, C54_valid_iff), as is what the others raise (C54_raises); an unvalidated interval makes queries run forever (refuted)."
  },
  {
   "property": "C55",
   "status": "partial",
   "theorems": [
    "C55_search_refuted",
    "C55_search_partial",
    "C55_search_with_names_partial",
    "C55_of_type_with_attendees_partial"
   ],
   "note": "All three search methods raise as soon as there is an attendee (refuted); the empty source works. The loops themselves are right: with attendees that have a getName, and with the dictionary of attendees in place of the missing attribute, they find exactly what is asked for (C55_search_with_names_partial, C55_of_type_with_attendees_partial)."
  },
  {
   "property": "C56",
   "status": "proved",
   "theorems": [
    "C56_round_up_to_days"
   ],
   "note": "All durations."
  },
  {
   "property": "C57",
   "status": "partial",
   "theorems": [
    "C57_touch_iff",
    "C57_free_maximal_partial",
    "C57_free_maximal_after_closing_partial",
    "C57_refuted"
   ],
   "note": "Two free periods touch exactly at the start of a zero-length blocking event (C57_touch_iff); hence false with such an event (C57_refuted)."
  },
  {
   "property": "C58",
   "status": "partial",
   "theorems": [
    "C58_organized_events_partial",
    "C58_refuted",
    "C58_organized_exact"
   ],
   "note": "Criteria naming an organizer replace the attendee (C58_refuted); exact for any criteria in C58_organized_exact."
  },
  {
   "property": "C59",
   "status": "partial",
   "theorems": [
    "C59_allday_covers_refuted",
    "C59_allday_covers_partial",
    "C59_allday_covers_iff"
   ],
   "note": "C59_allday_covers_iff says exactly when the adjusted event covers the original; a later start can lose time at the end (refuted)."
  },
  {
   "property": "C60",
   "status": "partial",
   "theorems": [
    "C60_delete_exact",
    "C60_delete_works_iff",
    "C60_delete_refuted",
    "C60_delete_partial"
   ],
   "note": "The effect of deleting any object is given exactly (C60_delete_exact); a stale object deletes another event (refuted)."
  },
  {
   "property": "C61",
   "status": "proved",
   "theorems": [
    "C61_content",
    "C61_default_organizer"
   ],
   "note": "Every successful import of components with distinct ids, from every reachable state. The default organizer is stated from the history: a registered member of the calendar, or nobody if it is empty."
  },
  {
   "property": "C62",
   "status": "partial",
   "theorems": [
    "C62_transfer_partial",
    "C62_arrives_exact",
    "C62_transfer_iff"
   ],
   "note": "Exactly what arrives for every event, and when it arrives with the same data."
  },
  {
   "property": "C63",
   "status": "partial",
   "theorems": [
    "C63_new",
    "C63_existing_status",
    "C63_existing_role_partial",
    "C63_existing_role_refuted",
    "C63_existing_role_exact"
   ],
   "note": "Exact for new events and for the statuses in known events. Roles in known events are the text's exactly if the event is announced as modified (C63_existing_role_exact): only when all lines ask for REQ-PARTICIPANT or the event is modified otherwise; a text that changes only a role is taken for no change (C63_existing_role_refuted)."
  },
  {
   "property": "C64",
   "status": "partial",
   "theorems": [
    "C64_unknown_participant_refuted",
    "C64_unknown_organizer"
   ],
   "note": "Unknown organizers are replaced; an unknown participant makes every such import fail (refuted in general)."
  },
  {
   "property": "C65",
   "status": "proved",
   "theorems": [
    "C65_imports_iff",
    "C65_well_formed_imports"
   ],
   "note": "C65_imports_iff: exactly when an import of a text with distinct ids succeeds; C65_well_formed_imports also covers repeated ids."
  },
  {
   "property": "C66",
   "status": "partial",
   "theorems": [
    "C66_again_exact",
    "C66_again_unchanged",
    "C66_again_iff",
    "C66_repeated_refuted",
    "C66_no_organizer",
    "C66_no_organizer_refuted",
    "C66_again_partial",
    "C66_again_silent_partial",
    "C66_again_refuted"
   ],
   "note": "Texts with distinct ids: exactly what a second import changes and announces (C66_again_exact), and that it changes nothing iff all new shown whole-day events have whole-day lengths (C66_again_iff). Refuted for a new whole-day event without an end, which loses its length the second time (C66_again_refuted); for a text that says one id twice (C66_repeated_refuted); for events without any organizer, where the second import fails (C66_no_organizer, C66_no_organizer_refuted). Texts with repeated ids: C121 says exactly when any import, so also the second, changes and reports nothing; C70 says which component wins."
  },
  {
   "property": "C67",
   "status": "proved",
   "theorems": [
    "C67_members",
    "C67_add_remove",
    "C67_main",
    "C67_separate"
   ],
   "note": "From the successful calls of the history alone."
  },
  {
   "property": "C68",
   "status": "proved",
   "theorems": [
    "C68_known",
    "C68_register"
   ],
   "note": "Looking somebody up by name is refuted separately (C55)."
  },
  {
   "property": "C69",
   "status": "proved",
   "theorems": [
    "C69_shown",
    "C69_all",
    "C69_total"
   ],
   "note": "For any period and criteria, with totality."
  },
  {
   "property": "C70",
   "status": "proved",
   "theorems": [
    "C70_last_wins",
    "C70_first_wins",
    "C70_hidden"
   ],
   "note": "Attributes, organizer and statuses; for roles of shown events see C63."
  },
  {
   "property": "C71",
   "status": "proved",
   "theorems": [
    "C53_failed_exact"
   ],
   "note": "For every failing import."
  },
  {
   "property": "C72",
   "status": "proved",
   "theorems": [
    "C60_delete_exact",
    "C60_delete_works_iff"
   ],
   "note": "Every object handle."
  },
  {
   "property": "C73",
   "status": "proved",
   "theorems": [
    "C22_events_in_day_exact",
    "C22_visible_iff",
    "C22_occurrences_in_day_exact"
   ],
   "note": "Refines C22 to equivalences."
  },
  {
   "property": "C74",
   "status": "proved",
   "theorems": [
    "C25_pieces_exact",
    "C25_empty_iff"
   ],
   "note": "Refines C25 to equivalences."
  },
  {
   "property": "C75",
   "status": "proved",
   "theorems": [
    "C33_clone_exact",
    "C34_calendar_exact",
    "C34_attendee_exact",
    "C34_occurrences_exact",
    "C58_organized_exact"
   ],
   "note": "Refines C33, C34 and C58 to equations for the criteria really used."
  },
  {
   "property": "C76",
   "status": "proved",
   "theorems": [
    "C43_same_id_iff",
    "C43_replaced_iff"
   ],
   "note": "Refines C43: within one store two generated ids are equal exactly if second and number are, and what is replaced then."
  },
  {
   "property": "C77",
   "status": "proved",
   "theorems": [
    "C49_no_iff",
    "C49_raises_iff",
    "C49_answers"
   ],
   "note": "Refines C49 to equivalences, including the cases that raise."
  },
  {
   "property": "C78",
   "status": "proved",
   "theorems": [
    "C38_remove_exact",
    "C39_listing_role_iff"
   ],
   "note": "Refines C38 and C39 to equivalences."
  },
  {
   "property": "C79",
   "status": "proved",
   "theorems": [
    "C59_allday_covers_iff"
   ],
   "note": "Refines C59 to an equivalence in the time of day of the start and the remainder of the length."
  },
  {
   "property": "C80",
   "status": "proved",
   "theorems": [
    "C80_raises_exact",
    "C80_finishes_exact",
    "C80_every_expansion",
    "C80_raises_iff"
   ],
   "note": "Total: outcome, yielded days and the exact condition for raising, for every rule kind (days as the code places them, see C04/C05 for the fifth weekday)."
  },
  {
   "property": "C81",
   "status": "proved",
   "theorems": [
    "C81_entries_exact",
    "C81_succeeds_iff",
    "C81_new_exact"
   ],
   "note": "Exact outcome and exact resulting statuses and roles, for setting on stored events and for both ways of creating."
  },
  {
   "property": "C82",
   "status": "proved",
   "theorems": [
    "C82_built",
    "C82_built_texts",
    "C82_offered",
    "C82_monthly_iff",
    "C82_weekdays_iff",
    "C82_status_blocks",
    "C82_status_frees",
    "C82_defaults",
    "C82_access_rfc",
    "C82_status_rfc"
   ],
   "note": "The vocabularies of the schema compared with what the recurrence, blocking and export code accepts."
  },
  {
   "property": "C83",
   "status": "proved",
   "theorems": [
    "C83_repr_makes",
    "C83_repr_distinct"
   ],
   "note": "Against an independent reader for Python expressions. Integers of ordinary size (no suffix L)."
  },
  {
   "property": "C84",
   "status": "proved",
   "theorems": [
    "C84_only_that_object",
    "C84_import_announces"
   ],
   "note": "Whatever the outcome of the operation; the announcement part is for imports that succeed (a failing one can leave an unannounced change)."
  },
  {
   "property": "C85",
   "status": "proved",
   "theorems": [
    "C85_import_exact",
    "C85_modified_iff",
    "C85_unnamed"
   ],
   "note": "Texts with distinct ids for the order; all texts and outcomes for events the text does not name."
  },
  {
   "property": "C86",
   "status": "proved",
   "theorems": [
    "C86_alone",
    "C86_others",
    "C86_same_call"
   ],
   "note": "World.v adds managers, setStorage and several storages to the model; every view of a storage is shown to be a reachable state of the single-storage system, so all other theorems apply to it."
  },
  {
   "property": "C87",
   "status": "proved",
   "theorems": [
    "C87_contents",
    "C87_unset",
    "C87_calendar"
   ],
   "note": "Storage switching; a manager without storage raises."
  },
  {
   "property": "C88",
   "status": "partial",
   "theorems": [
    "C88_ids_partial",
    "C88_same_iff",
    "C88_ids_refuted"
   ],
   "note": "Proved for storages with different ids on one host (C88_ids_partial); two storages with the same id make the same ids (C88_ids_refuted). C88_same_iff says exactly when two ids coincide."
  },
  {
   "property": "C89",
   "status": "partial",
   "theorems": [
    "C89_change_exact",
    "C89_sharing_arises",
    "C89_as_values",
    "C89_careful_partial",
    "C89_refuted"
   ],
   "note": "Refuted as stated (C89_refuted: two events of one specification). Exact effect of a change in place (C89_change_exact), exactly which calls can introduce sharing (C89_sharing_arises), the claim for careful use (C89_careful_partial), and that without changes in place values are enough (C89_as_values), which justifies the value model used everywhere else."
  },
  {
   "property": "C90",
   "status": "proved",
   "theorems": [
    "C09_ends_iff",
    "C09_stuck_exact",
    "C09_queries_end",
    "C09_stuck_query"
   ],
   "note": "An equivalence for termination, the shape of the rules that never end, and the same for queries."
  },
  {
   "property": "C91",
   "status": "proved",
   "theorems": [
    "C28_free_exact",
    "C28_kept_iff",
    "C57_touch_iff"
   ],
   "note": "Refines C28 to equations."
  },
  {
   "property": "C92",
   "status": "proved",
   "theorems": [
    "C31_adds_exact"
   ],
   "note": "Refines C31 to an equation for the blocked instants with and without one event."
  },
  {
   "property": "C93",
   "status": "proved",
   "theorems": [
    "C37_announced",
    "C37_who_can_change",
    "C40_status_origin"
   ],
   "note": "Over histories: each change of a status is announced once and made by a call that may do so."
  },
  {
   "property": "C94",
   "status": "proved",
   "theorems": [
    "C44_creator_exact"
   ],
   "note": "Refines C44."
  },
  {
   "property": "C95",
   "status": "proved",
   "theorems": [
    "C47_works_iff",
    "C47_reimport_exact",
    "C47_roundtrip_iff"
   ],
   "note": "Equivalences for when an export can be imported and when the import changes nothing."
  },
  {
   "property": "C96",
   "status": "proved",
   "theorems": [
    "C62_arrives_exact",
    "C62_transfer_iff"
   ],
   "note": "Equivalences for transfer to an empty and to a used store."
  },
  {
   "property": "C97",
   "status": "proved",
   "theorems": [
    "C51_repair_exact"
   ],
   "note": "An equation for the repaired text."
  },
  {
   "property": "C98",
   "status": "proved",
   "theorems": [
    "C52_works_iff",
    "C52_text_exact",
    "C52_raises"
   ],
   "note": "Equivalences for when a rule has a text, the text itself and the errors."
  },
  {
   "property": "C99",
   "status": "proved",
   "theorems": [
    "C54_imports_iff",
    "C54_valid_iff",
    "C54_rule_says",
    "C54_raises"
   ],
   "note": "Equivalences for acceptance and validity, and the error of every rejected text."
  },
  {
   "property": "C100",
   "status": "proved",
   "theorems": [
    "C66_again_exact",
    "C66_again_iff"
   ],
   "note": "Equations for the second import."
  },
  {
   "property": "C101",
   "status": "proved",
   "theorems": [
    "C63_existing_role_exact"
   ],
   "note": "Equation for the roles after an update."
  },
  {
   "property": "C102",
   "status": "proved",
   "theorems": [
    "C89_change_exact",
    "C89_sharing_arises",
    "C89_as_values"
   ],
   "note": "Aliasing of mutable attribute values on a heap of cells."
  },
  {
   "property": "C103",
   "status": "proved",
   "theorems": [
    "C103_occurrences",
    "C103_events",
    "C103_blocked"
   ],
   "note": "Exact, with the zero-length events at the common end, which neither part shows."
  },
  {
   "property": "C104",
   "status": "proved",
   "theorems": [
    "C104_events",
    "C104_occurrences",
    "C104_selected_events",
    "C104_selected_occurrences",
    "C104_selected_segments"
   ],
   "note": "A result with criteria is the filtered result without, as a list (C104_selected_*), and is there whenever that is."
  },
  {
   "property": "C105",
   "status": "proved",
   "theorems": [
    "C105_order"
   ],
   "note": "For components with different ids, up to the order of events."
  },
  {
   "property": "C106",
   "status": "proved",
   "theorems": [
    "C106_portions"
   ],
   "note": "Importing a split text is importing it in portions."
  },
  {
   "property": "C107",
   "status": "proved",
   "theorems": [
    "C107_recent_years"
   ],
   "note": "For every current year."
  },
  {
   "property": "C108",
   "status": "proved",
   "theorems": [
    "C108_bounded"
   ],
   "note": "For every query for occurrences, of stores, calendars and attendees."
  },
  {
   "property": "C109",
   "status": "proved",
   "theorems": [
    "C109_events",
    "C109_occurrences",
    "C109_day",
    "C109_blocked",
    "C109_free"
   ],
   "note": "Under the conditions that sound histories establish (no failed construction, valid rules), answers are given for every fuel that suffices and are exact."
  },
  {
   "property": "C110",
   "status": "proved",
   "theorems": [
    "C110_listeners"
   ],
   "note": "Over executions with subscribers that make no calls."
  },
  {
   "property": "C111",
   "status": "proved",
   "theorems": [
    "C111_status",
    "C111_invite",
    "C111_removal"
   ],
   "note": "Settling subscribers and listeners in any number and order."
  },
  {
   "property": "C112",
   "status": "proved",
   "theorems": [
    "C112_account",
    "C112_refused"
   ],
   "note": "The account holds for all subscribers; the exception with KeyError is part of the statement, and C112_refused shows that it is reached."
  },
  {
   "property": "C113",
   "status": "proved",
   "theorems": [
    "C113_first",
    "C113_second"
   ],
   "note": "The part about later subscribers is C113_second: they may hear of a status already replaced."
  },
  {
   "property": "C114",
   "status": "proved",
   "theorems": [
    "C114_disagreement"
   ],
   "note": "Every depth of nested deliveries is exhausted."
  },
  {
   "property": "C115",
   "status": "proved",
   "theorems": [
    "C115_in_turn",
    "C115_same_states",
    "C115_reachable",
    "C115_history",
    "C115_storage",
    "C115_sound"
   ],
   "note": "C115_in_turn is the general statement; the others lift reachable states, notifications, the storage and sound histories. Subscribers are programs with a memory that all share (Deliver.v)."
  },
  {
   "property": "C116",
   "status": "proved",
   "theorems": [
    "C116_listeners"
   ],
   "note": "The same for the world with several stores."
  },
  {
   "property": "C117",
   "status": "proved",
   "theorems": [
    "C117_inviter"
   ],
   "note": "A subscriber that calls back into the library while it is told."
  },
  {
   "property": "C118",
   "status": "proved",
   "theorems": [
    "C118_kept",
    "C118_import"
   ],
   "note": "Over histories without deletions; an import deletes only when asked to synchronize."
  },
  {
   "property": "C119",
   "status": "proved",
   "theorems": [
    "C119_value",
    "C119_callers_list",
    "C119_again",
    "C119_sharing"
   ],
   "note": "For every sorting method; the result is a new list unless the argument is empty."
  },
  {
   "property": "C120",
   "status": "proved",
   "theorems": [
    "C120_event",
    "C120_step",
    "C120_itself",
    "C120_history",
    "C120_converse",
    "C120_queries",
    "C120_attendees",
    "C120_main_refuted"
   ],
   "note": "Every dictionary may be reordered before every call (C120_history); excepted are imports into a calendar of several attendees of components without a known organizer, for which C120_main_refuted shows that the order is visible."
  },
  {
   "property": "C121",
   "status": "proved",
   "theorems": [
    "C121_silent_iff",
    "C121_conflict"
   ],
   "note": "C121_silent_iff is the equivalence, with no assumption on ids; C121_conflict the consequence for texts that contradict themselves."
  },
  {
   "property": "C122",
   "status": "proved",
   "theorems": [
    "C122_first",
    "C122_everything",
    "C122_later_refuted",
    "C122_unnoticed"
   ],
   "note": "C122_first: the order; C122_everything: any position, up to the order; C122_later_refuted: the order fails for later subscribers; C122_unnoticed: no influence on the others. A subscriber may catch any exception but must not go on after the recursion limit was hit."
  },
  {
   "property": "C123",
   "status": "proved",
   "theorems": [
    "C123_true",
    "C123_later_refuted"
   ],
   "note": "C123_true for the first subscriber, where X holds for the components of all texts imported by the call and the subscribers; C123_later_refuted shows that it fails for later ones, as the statement says."
  },
  {
   "property": "C124",
   "status": "proved",
   "theorems": [
    "C124_answers",
    "C124_asked_once"
   ],
   "note": "Over histories."
  },
  {
   "property": "C125",
   "status": "proved",
   "theorems": [
    "C125_stops",
    "C125_created",
    "C125_half"
   ],
   "note": "C125_stops: all calls; C125_created and C125_half: what stays."
  },
  {
   "property": "C126",
   "status": "proved",
   "theorems": [
    "C126_alone",
    "C126_each",
    "C126_interleave"
   ],
   "note": "Calls addressed by id; by commuting calls on different ids."
  },
  {
   "property": "C127",
   "status": "proved",
   "theorems": [
    "C127_equal_iff",
    "C127_constructed",
    "C127_hash",
    "C127_hash_iff",
    "C127_dates",
    "C127_replace",
    "C127_list_differs"
   ],
   "note": "Rules as mutable objects: equality, hashing and replacing after assignment."
  },
  {
   "property": "C128",
   "status": "proved",
   "theorems": [
    "C128_answers_exactly",
    "C128_policy_respects",
    "C128_never_twice",
    "C128_invited"
   ],
   "note": "A subscriber that answers for a room; its accepted events never overlap, by an invariant over executions."
  },
  {
   "property": "C129",
   "status": "proved",
   "theorems": [
    "C129_occurrences_move",
    "C129_days_move",
    "C129_blocked_move",
    "C129_free_move",
    "C129_rule_moves",
    "C129_rule_moves_finishes",
    "C129_event_moves",
    "C129_events_move",
    "C129_calendar_repeats"
   ],
   "note": "Shifting by 146097 days commutes with rules, expansion and calendar functions, up to the limits of dates."
  },
  {
   "property": "C130",
   "status": "proved",
   "theorems": [
    "C130_split",
    "C130_occurrences"
   ],
   "note": "For every date of the series that lies in the part the rule counts from (same_part says which); counts and exceptions are carried over."
  },
  {
   "property": "C131",
   "status": "proved",
   "theorems": [
    "C131_weekly_is_daily",
    "C131_all_weekdays_is_daily",
    "C131_monthly_is_yearly",
    "C131_weekdays_are_a_set"
   ],
   "note": "Equations between the generated lists."
  },
  {
   "property": "C132",
   "status": "proved",
   "theorems": [
    "C132_exceptions",
    "C132_until",
    "C132_count",
    "C132_interval"
   ],
   "note": "Equations or inclusions between the generated lists before and after replace."
  },
  {
   "property": "C133",
   "status": "proved",
   "theorems": [
    "C133_arranged",
    "C133_no_collision",
    "C133_then_taken"
   ],
   "note": "From a free period of the answer to occurrences of the stored events."
  },
  {
   "property": "C134",
   "status": "proved",
   "theorems": [
    "C134_deleted",
    "C134_answered",
    "C134_invited",
    "C134_moved"
   ],
   "note": "Equivalences on instants for deletion, answers, invitations and moves."
  },
  {
   "property": "C135",
   "status": "proved",
   "theorems": [
    "C135_one_block",
    "C135_nothing_free",
    "C135_nothing_long_enough",
    "C135_answered",
    "C135_two_questions"
   ],
   "note": "Working hours that pass midnight are treated as one block and nothing is free; two separate questions give the right answer."
  },
  {
   "property": "C136",
   "status": "proved",
   "theorems": [
    "C136_mirror",
    "C136_role_behind",
    "C136_refreshed"
   ],
   "note": "An invariant over executions with reacting subscribers; roles are the exception (C136_role_behind), mended by the next announcement (C136_refreshed)."
  },
  {
   "property": "C137",
   "status": "partial",
   "theorems": [
    "C137_same_moment",
    "C137_length",
    "C137_kept_iff",
    "C137_overlap",
    "C137_floating",
    "C137_negative_refuted"
   ],
   "note": "Same moments give the same import (C137_same_moment), the stored start and length are exact (C137_length), and length, order and overlap are kept wherever the local clock is not changed in between (C137_kept_iff, C137_overlap). Where clocks are put back an event can end before it starts and its organizer counts as free (refuted)."
  },
  {
   "property": "C138",
   "status": "proved",
   "theorems": [
    "C138_fits_iff",
    "C138_no_collision",
    "C138_then_taken"
   ],
   "note": "Fits exactly if every occurrence lies in a free period; then no occurrence collides, and afterwards all are blocked."
  },
  {
   "property": "C139",
   "status": "proved",
   "theorems": [
    "C139_exact",
    "C139_answers",
    "C139_divides",
    "C139_answered",
    "C139_invited",
    "C139_deleted"
   ],
   "note": "Equation for the list by status; the lists of the five statuses divide the events; effect of answering, inviting and deleting on every list of everybody."
  },
  {
   "property": "C140",
   "status": "proved",
   "theorems": [
    "C140_unedited",
    "C140_edited",
    "C140_removed",
    "C140_others",
    "C140_only_removed"
   ],
   "note": "Component by component; for events that lose nothing by being exported (the exact condition is C95's) and edits that add no people."
  },
  {
   "property": "C141",
   "status": "proved",
   "theorems": [
    "C141_given",
    "C141_organizer"
   ],
   "note": "Over histories: one call gave an event all its values; the organizer separately."
  },
  {
   "property": "C142",
   "status": "proved",
   "theorems": [
    "C142_answered",
    "C142_occurrences",
    "C142_events",
    "C142_segmented",
    "C142_blocked",
    "C142_free",
    "C142_days"
   ],
   "note": "C142_answered, C142_segmented, C142_blocked and C142_free need nothing of the rules; the equations need rules that go forward. Example C142_limits shows why: later ends can raise, and rules going back show less."
  },
  {
   "property": "C143",
   "status": "proved",
   "theorems": [
    "C143_criteria",
    "C143_events",
    "C143_occurrences",
    "C143_segmented",
    "C143_blocked",
    "C143_free"
   ],
   "note": "Equivalences for the exception of every query. The dates and the end of a rule's generator are taken from the rule; what rules raise is C80 and C90."
  },
  {
   "property": "C144",
   "status": "proved",
   "theorems": [
    "C144_settled",
    "C144_whole",
    "C144_passed_on"
   ],
   "note": "C144_settled for any period and criteria, C144_whole for the whole calendar, C144_passed_on for another store. C144_limits shows a second text that is smaller than the first and the all-day event of no length whose text does change. The text is the data icalendar keeps (wire), not its bytes."
  },
  {
   "property": "C145",
   "status": "proved",
   "theorems": [
    "C145_fits_iff",
    "C145_earliest",
    "C145_later"
   ],
   "note": "C145_fits_iff is an equivalence for every possible time; first_fit, the search a caller does, is defined beside the theorem. That a meeting then arranged collides with nothing is C133."
  },
  {
   "property": "C146",
   "status": "proved",
   "theorems": [
    "C146_restored",
    "C146_whole"
   ],
   "note": "C146_restored for any period and criteria, event by event; C146_whole for the whole calendar. Texts are compared up to the order of the categories, which are a set (same_words), and are the data icalendar keeps (wire), not its bytes. C146_case: one event deleted, one moved, one left, one new since the export."
  },
  {
   "property": "C147",
   "status": "proved",
   "theorems": [
    "C147_raises",
    "C147_left"
   ],
   "note": "C147_raises is an equivalence, with the order in which faults are noticed; C147_left compares the store with the one after importing the components before the faulty one; how far the event of the faulty component is changed is C71. Listing the calendar is C143; parsing the text is not modelled and its result is a parameter."
  },
  {
   "property": "C148",
   "status": "proved",
   "theorems": [
    "C148_round",
    "C148_adjust",
    "C148_new",
    "C148_step",
    "C148_between",
    "C148_moved",
    "C148_period"
   ],
   "note": "C148_adjust and C148_new compare the model with limits (Limits.v) with the one without that the other theorems use; C148_step, C148_between and C148_moved show that the limit is met nowhere else."
  },
  {
   "property": "C149",
   "status": "proved",
   "theorems": [
    "C149_read",
    "C149_component",
    "C149_event",
    "C149_same"
   ],
   "note": "The library's get_inline and decoded are parameters: any answer or exception. C149_read is an equivalence for failures and gives the set otherwise; C149_component places it in reading a component; C149_event and C149_same are its effects."
  },
  {
   "property": "C150",
   "status": "proved",
   "theorems": [
    "C150_event",
    "C150_calendar",
    "C150_raises"
   ],
   "note": "C150_event gives the exported component as a relation between event and component that determines the component, and the failures as an equivalence; C150_calendar and C150_raises the same for a calendar. The text itself is icalendar's."
  },
  {
   "property": "C151",
   "status": "proved",
   "theorems": [
    "C151_raises",
    "C151_left"
   ],
   "note": "C151_raises: an iff, for every call and exception. C151_left: the state and the notifications after a call that raised."
  },
  {
   "property": "C152",
   "status": "proved",
   "theorems": [
    "C152_raises",
    "C152_returns",
    "C152_narrower"
   ],
   "note": "C152_raises and C152_returns are iffs for every event and period; C152_narrower compares an open with a closed start."
  },
  {
   "property": "C153",
   "status": "proved",
   "theorems": [
    "C153_compare",
    "C153_symmetric",
    "C153_will_modify",
    "C153_set",
    "C153_import",
    "C153_told",
    "C153_plain"
   ],
   "note": "C153_compare, C153_symmetric: comparing rules. C153_will_modify, C153_set, C153_import: exact, for every order. C153_plain: without zones this is the model used everywhere else."
  },
  {
   "property": "C154",
   "status": "proved",
   "theorems": [
    "C154_kept",
    "C154_exact",
    "C154_no_length",
    "C154_constructed",
    "C154_choices",
    "C154_text_needed"
   ],
   "note": "Exact, and the condition on texts is needed (C154_text_needed): the standard's CANCELLED is no offered status and an interval of zero is taken over."
  },
  {
   "property": "C155",
   "status": "proved",
   "theorems": [
    "C155_exact",
    "C155_nobody",
    "C155_apart",
    "C155_default_shared"
   ],
   "note": "C155_default_shared is the surprising case: an event made without attendees gets the person somebody else appended to a specification of their own."
  },
  {
   "property": "C156",
   "status": "proved",
   "theorems": [
    "C156_interfaces",
    "C156_heard",
    "C156_everything",
    "C156_split"
   ],
   "note": "full; zope.interface's implements and providedBy are described by what they do with these five classes and interfaces"
  },
  {
   "property": "C157",
   "status": "proved",
   "theorems": [
    "C157_alone",
    "C157_only",
    "C157_turns"
   ],
   "note": "the specification by_oneself knows one person's status and role only; C157_alone relates any run to it, C157_turns compares two interleavings with sys_alike (C120 says what that means for queries)"
  },
  {
   "property": "C158",
   "status": "proved",
   "theorems": [
    "C158_call",
    "C158_history",
    "C158_queries"
   ],
   "note": "equality of systems, notifications and outcomes, not just likeness; the empty event id is kept because the model gives it to positions at which no object exists"
  },
  {
   "property": "C159",
   "status": "proved",
   "theorems": [
    "C159_taken_back",
    "C159_answers",
    "C159_gone",
    "C159_deleted",
    "C159_registered"
   ],
   "note": "The undoing calls are constructed: a specification with the old attributes, the organizer and those whose status only a specification can set, then for everybody else on the event before or after three calls that remove them and up to two that bring back their status and role; deletion of what was created or imported; the opposite change of a calendar's members. Objects that are no longer stored and calendars that were created stay: the API has no call that removes them. Calendars created since keep the members given to them."
  },
  {
   "property": "C160",
   "status": "proved",
   "theorems": [
    "C160_answers",
    "C160_organized",
    "C160_states",
    "C160_others",
    "C160_import_tells"
   ],
   "note": "Answers of two lists of events with the same events of some people are equal, exceptions included; two reachable states that are the same to the members of a calendar give the same answers up to order; calls by id that name no member keep the state the same to them. The import exception is a theorem too (C160_import_tells)."
  },
  {
   "property": "C161",
   "status": "proved",
   "theorems": [
    "C161_times",
    "C161_call",
    "C161_history",
    "C161_queries"
   ],
   "note": "C161_times for any replacement; C161_call, C161_history and C161_queries for one-to-one ones. The empty status and access class are kept only because the model gives them to objects that do not exist."
  },
  {
   "property": "C162",
   "status": "proved",
   "theorems": [
    "C162_events",
    "C162_occurrences",
    "C162_blocked",
    "C162_free"
   ],
   "note": "Blocked periods are compared as lists, not only as sets of instants, for any number of members. The free periods are compared instant by instant within the window asked about, without a minimal duration (C29 covers that)."
  },
  {
   "property": "C163",
   "status": "proved",
   "theorems": [
    "C163_blocked_iff",
    "C163_free",
    "C163_copy",
    "C163_cut"
   ],
   "note": "An equivalence between lists and taken time; corollaries for copies of an event and for a meeting cut in two."
  },
  {
   "property": "C164",
   "status": "proved",
   "theorems": [
    "C164_dates",
    "C164_nth",
    "C164_count"
   ],
   "note": "Closed formula kth_date for every kind; C164_dates (membership), C164_nth (the list itself without exceptions), C164_count (how many). The count theorem has no restriction on the day."
  },
  {
   "property": "C165",
   "status": "proved",
   "theorems": [
    "C165_occurrences",
    "C165_segmented",
    "C165_blocked",
    "C165_free"
   ],
   "note": "The relation unrolled lets any subset of the series be replaced; no well-formedness of the events is assumed. The answer of the original calendar must be a result, not an exception; the other calendar's is then a result too."
  },
  {
   "property": "C166",
   "status": "proved",
   "theorems": [
    "C166_answered",
    "C166_blocked",
    "C166_free",
    "C166_halves",
    "C166_longer"
   ],
   "note": "C166_answered has no premises; the others need events accepted by the constructors and hours within a day."
  },
  {
   "property": "C167",
   "status": "partial",
   "theorems": [
    "C167_usual",
    "C167_odd_periods_find_nothing",
    "C167_length_ignored",
    "C167_period_partial",
    "C167_refuted"
   ],
   "note": "Refuted; C167_period_partial and C167_odd_periods_find_nothing say exactly what happens instead."
  },
  {
   "property": "C168",
   "status": "partial",
   "theorems": [
    "C168_serial_partial",
    "C168_outcomes",
    "C168_alone",
    "C168_ends",
    "C168_separate_partial",
    "C168_events",
    "C168_one_wins",
    "C168_no_loss_partial",
    "C168_deleted_once",
    "C168_same_answer",
    "C168_lost_refuted",
    "C168_stale_refuted",
    "C168_removed_twice_refuted"
   ],
   "note": "Proved for calls that change different answers and for distinct announced ids; refuted for equal ids made in the same second and for two changes of the same answer."
  },
  {
   "property": "C169",
   "status": "partial",
   "theorems": [
    "C169_alone",
    "C169_ends",
    "C169_origin",
    "C169_announced",
    "C169_after",
    "C169_settled_partial",
    "C169_override_refuted",
    "C169_twice_refuted"
   ],
   "note": "Proved for every schedule, except that inviting respects an answer given meanwhile, which is refuted; C169_settled_partial is for people with a status before the calls."
  },
  {
   "property": "C170",
   "status": "partial",
   "theorems": [
    "C170_ends",
    "C170_quiet",
    "C170_found",
    "C170_expanded",
    "C170_kept_partial",
    "C170_kept_occurrences_partial",
    "C170_undisturbed",
    "C170_one_moment_partial",
    "C170_never_refuted",
    "C170_missed_refuted",
    "C170_mixed_refuted"
   ],
   "note": "C170_ends, C170_quiet, C170_undisturbed, C170_found and C170_expanded hold for all queries; that the answer is right for one moment is refuted, C170_one_moment_partial and the two C170_kept theorems say what remains."
  },
  {
   "property": "C171",
   "status": "partial",
   "theorems": [
    "C171_blocked",
    "C171_reason",
    "C171_form",
    "C171_free",
    "C171_still",
    "C171_always_refuted",
    "C171_never_refuted"
   ],
   "note": "Proved for every run: C171_still (nobody changes the events: as getBlockedPeriods and getFreePeriods of one thread), C171_blocked, C171_reason, C171_form, C171_free. That a free period is right for one moment is refuted by two schedules of real calls: C171_always_refuted (busy all the time, called free) and C171_never_refuted (free all the time, called busy)."
  },
  {
   "property": "C172",
   "status": "partial",
   "theorems": [
    "C172_alone",
    "C172_reachable",
    "C172_spares",
    "C172_success",
    "C172_raises",
    "C172_undisturbed",
    "C172_ends",
    "C172_many",
    "C172_returns_refuted",
    "C172_own_refuted"
   ],
   "note": "Proved for every schedule: C172_alone, C172_reachable, C172_spares, C172_success, C172_raises (exactly when an action raises, and what it leaves), C172_undisturbed (the others delete nothing), C172_ends, C172_many (several imports at once). The last sentence is refuted by two schedules of real calls: C172_returns_refuted and C172_own_refuted."
  },
  {
   "property": "C173",
   "status": "partial",
   "theorems": [
    "C173_reachable",
    "C173_spares",
    "C173_coarse",
    "C173_alone",
    "C173_ends",
    "C173_raises",
    "C173_success",
    "C173_many",
    "C173_kept_refuted",
    "C173_alive_refuted",
    "C173_other_refuted"
   ],
   "note": "Proved for every schedule: C173_alone, C173_coarse (the runs of C172 are among these), C173_reachable, C173_spares (with the window: what an action does is about what was looked up just before), C173_raises (exactly when and what), C173_ends. The last sentence is refuted by three schedules of real calls: C173_kept_refuted, C173_alive_refuted, C173_other_refuted."
  },
  {
   "property": "C174",
   "status": "partial",
   "theorems": [
    "C174_pieces",
    "C174_raises",
    "C174_event",
    "C174_calendar",
    "C174_uids",
    "C174_still",
    "C174_undisturbed",
    "C174_moment_refuted",
    "C174_returns_refuted",
    "C174_public_refuted"
   ],
   "note": "Proved for all states seen by the reads: C174_pieces, C174_raises, C174_event (unchanged events and unchanged times), C174_calendar, C174_uids, C174_still, C174_undisturbed. The last sentence is refuted by three schedules with one call each: C174_moment_refuted, C174_public_refuted, C174_returns_refuted."
  },
  {
   "property": "C175",
   "status": "partial",
   "theorems": [
    "C175_attributes",
    "C175_organizer",
    "C175_participants",
    "C175_roles",
    "C175_ends",
    "C175_alone",
    "C175_either_refuted",
    "C175_roles_refuted"
   ],
   "note": "Proved for every schedule: C175_attributes, C175_organizer, C175_participants, C175_ends, C175_alone, and C175_roles if nobody is removed. The last sentence is refuted by schedules of two editors of a stored event: C175_either_refuted and C175_roles_refuted."
  }
 ]
}