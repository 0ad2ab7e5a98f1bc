{"id": "C01", "title": "Daily recurrence dates are exact", "statement": "Iterating a DailyRecurrenceRule for an event yields, in order, exactly the dates start, start+interval, start+2*interval, ... that are not after the end date, not after 'until', among the first 'count' repetitions (exceptions count), and not listed as exceptions.", "quantifier": "every start date, interval >= 1, count, until, exception list and end date whose next repetition is still representable (before 10000-01-01)", "why_tests_cant": "The date space, intervals and bounds are unbounded; a unit test samples a handful of months.", "anchors": ["src/calcore/recurrent.py:BasicRecurrenceRule.apply", "src/calcore/recurrent.py:BasicRecurrenceRule._nextRecurrence", "src/calcore/recurrent.py:DailyRecurrenceRule"]}
{"id": "C02", "title": "Weekly recurrence dates are exact", "statement": "Iterating a WeeklyRecurrenceRule yields, in order, exactly the days on or after the start that fall on a selected weekday or on the start's own weekday, in a week whose distance from the start's week is a multiple of interval, subject to count, until, exceptions and end date.", "quantifier": "every start, weekday list, interval >= 1, count, until, exceptions and end date before 9999-12-31", "why_tests_cant": "Interaction of ISO weeks, intervals and weekday sets has infinitely many phase combinations.", "anchors": ["src/calcore/recurrent.py:WeeklyRecurrenceRule.apply", "src/calcore/recurrent.py:weekspan"]}
{"id": "C03", "title": "Monthly recurrence on the day of month is exact", "statement": "Iterating a MonthlyRecurrenceRule in 'monthday' mode yields, in order, exactly the dates with the same day number as the start in months at a distance multiple of interval, skipping months that lack that day, subject to count, until, exceptions and end date.", "quantifier": "every start (including 29, 30, 31 and leap days), interval >= 1, count, until, exceptions, end date such that a later repetition is representable", "why_tests_cant": "Month lengths and leap years make the skip behaviour depend on the whole calendar, not on samples.", "anchors": ["src/calcore/recurrent.py:MonthlyRecurrenceRule._nextRecurrence", "src/calcore/recurrent.py:BasicRecurrenceRule.apply"]}
{"id": "C04", "title": "Monthly recurrence on the n-th weekday is exact", "statement": "Iterating a MonthlyRecurrenceRule in 'weekday' mode yields, in order, exactly the dates that have the same weekday and the same week-of-month index as the start, in months at a distance multiple of interval.", "quantifier": "every start, interval >= 1, count, until, exceptions, end date", "why_tests_cant": "Depends on the weekday layout of every month; the fifth-weekday case only shows on some months.", "anchors": ["src/calcore/recurrent.py:MonthlyRecurrenceRule._applyWeekday", "src/calcore/recurrent.py:monthindex", "src/calcore/interfaces.py:IMonthlyRecurrenceRule"]}
{"id": "C05", "title": "Monthly recurrence on the n-th last weekday is exact", "statement": "Iterating a MonthlyRecurrenceRule in 'lastweekday' mode yields, in order, exactly the dates that have the same weekday and the same week index counted from the end of the month as the start, in months at a distance multiple of interval.", "quantifier": "every start, interval >= 1, count, until, exceptions, end date", "why_tests_cant": "Depends on the weekday layout and length of every month.", "anchors": ["src/calcore/recurrent.py:MonthlyRecurrenceRule._applyLastWeekday", "src/calcore/recurrent.py:monthindex", "src/calcore/interfaces.py:IMonthlyRecurrenceRule"]}
{"id": "C06", "title": "Yearly recurrence dates are exact", "statement": "Iterating a YearlyRecurrenceRule yields, in order, exactly the dates with the same month and day as the start in years at a distance multiple of interval, skipping years in which that day does not exist, subject to count, until, exceptions and end date.", "quantifier": "every start (including 29 February), interval >= 1, count, until, exceptions, end date", "why_tests_cant": "The leap-day start is one day in 1461 and fails only when the iteration crosses into a common year.", "anchors": ["src/calcore/recurrent.py:YearlyRecurrenceRule._nextRecurrence", "src/calcore/recurrent.py:BasicRecurrenceRule.apply"]}
{"id": "C07", "title": "Recurrence dates come out strictly increasing and never before the start", "statement": "Whatever a recurrence rule with interval >= 1 yields, on any prefix of the iteration, is strictly increasing (so free of duplicates) and never earlier than the event's start date.", "quantifier": "every rule kind, every attribute values with interval >= 1, every event start, every end date, every prefix of the iteration", "why_tests_cant": "The iteration can be arbitrarily long.", "anchors": ["src/calcore/recurrent.py:BasicRecurrenceRule.apply", "src/calcore/recurrent.py:WeeklyRecurrenceRule.apply", "src/calcore/recurrent.py:MonthlyRecurrenceRule.apply"]}
{"id": "C08", "title": "The end date only truncates the iteration", "statement": "Passing an end date to a rule's iteration yields exactly the dates of the unbounded iteration that are not after the end date: it neither drops, adds nor shifts repetitions.", "quantifier": "every repeating rule with interval >= 1, every event, every end date", "why_tests_cant": "Requires comparing two infinite generators.", "anchors": ["src/calcore/recurrent.py:BasicRecurrenceRule.apply", "src/calcore/interfaces.py:IRecurrenceRule.apply"]}
{"id": "C09", "title": "Expanding a recurrence over a bounded period terminates", "statement": "Iterating a recurrence rule with an end date always comes to an end (it stops or raises) for every rule a user can attach to an event, so a query over a bounded period never hangs.", "quantifier": "every rule obtainable from a constructor or from importing an iCalendar RRULE, every start, every end date", "why_tests_cant": "Non-termination cannot be observed by a test, and the offending intervals are data supplied by other programs.", "anchors": ["src/calcore/recurrent.py:BasicRecurrenceRule.apply", "src/calcore/recurrent.py:MonthlyRecurrenceRule._nextRecurrence", "src/calcore/cal.py:CalendarBase._getRecurrenceRule", "src/calcore/interfaces.py:IStorageManager.getOccurrences"]}
{"id": "C10", "title": "Recurrence rules validate their arguments", "statement": "Constructing (or replace()-ing) a recurrence rule succeeds exactly when not both count and until are given, interval >= 1, every exception is a date, every weekday is in 0..6 and the monthly mode is one of the three documented ones; otherwise it raises ValueError. replace() changes exactly the given fields.", "quantifier": "every argument combination", "why_tests_cant": "Combinations of optional arguments and arbitrary sequences.", "anchors": ["src/calcore/recurrent.py:BasicRecurrenceRule._validate", "src/calcore/recurrent.py:WeeklyRecurrenceRule._validate", "src/calcore/recurrent.py:MonthlyRecurrenceRule._validate", "src/calcore/recurrent.py:BasicRecurrenceRule.replace"]}
{"id": "C11", "title": "Equal recurrence rules are interchangeable", "statement": "Rule equality is an equivalence relation, != is its negation, equal rules hash alike (they present the same tuple to hash), and equal rules yield the same dates on every event and end date.", "quantifier": "every pair of rules, every event, every end date", "why_tests_cant": "Quantifies over pairs of rules and complete iterations.", "anchors": ["src/calcore/recurrent.py:BasicRecurrenceRule.__eq__", "src/calcore/recurrent.py:BasicRecurrenceRule.__ne__", "src/calcore/recurrent.py:BasicRecurrenceRule.__hash__", "src/calcore/recurrent.py:BasicRecurrenceRule._tupleForComparison"]}
{"id": "C12", "title": "The first repetition is the event itself", "statement": "The first date a rule yields is the event's own start date, unless the start is excluded by an exception, count <= 0, until before the start, or an end date before the start.", "quantifier": "every rule kind with interval >= 1, every start date, except that an n-th-last-weekday rule raises ValueError for a start in December 9999", "why_tests_cant": "Depends on the week-index computation being right for all days of all months.", "anchors": ["src/calcore/recurrent.py:BasicRecurrenceRule.apply", "src/calcore/recurrent.py:monthindex"]}
{"id": "C13", "title": "weekspan is the distance in ISO weeks", "statement": "weekspan(a, b) is 0 exactly when a and b lie in the same Monday-to-Sunday week, is additive (weekspan(a,b)+weekspan(b,c)=weekspan(a,c)), grows by one for each seven days, and never raises.", "quantifier": "all pairs and triples of dates", "why_tests_cant": "Quantifies over all dates.", "anchors": ["src/calcore/recurrent.py:weekspan"]}
{"id": "C14", "title": "monthindex finds the n-th (last) weekday of a month", "statement": "monthindex(year, month, n, weekday) for n in 1..4 is the unique date of that month with that weekday whose week-of-month index is n, and for n in -1..-4 the unique one counted from the end of the month (in December 9999 it raises ValueError instead). For other n weeks are counted on from the first, or back from the last, such weekday, out of the month where need be. For a weekday that does not exist it counts weeks from the seventh of the month.", "quantifier": "every year, month, weekday and n in the stated ranges", "why_tests_cant": "All month layouts (14 year types, leap rule) must be covered.", "anchors": ["src/calcore/recurrent.py:monthindex"]}
{"id": "C15", "title": "ISO week numbers convert to dates correctly", "statement": "weeknr2datetime(year, week, weekday) is midnight of the unique day whose ISO 8601 year, week and weekday (year of the Thursday of its week; number of that Thursday's week) are the given ones, for every existing ISO week; with no weekday it is the Monday of the week.", "quantifier": "every year, every week number of that year, every weekday within the representable calendar", "why_tests_cant": "28/400-year cycle of week-1 rules; tests cover one week of 2005.", "anchors": ["src/calcore/isoweek.py:weeknr2datetime"]}
{"id": "C16", "title": "Number of ISO weeks in a year", "statement": "getWeeksInYear(y) is 52 or 53 and is the ISO week number of the last ISO week of y: the Mondays of week 1 of y and of y+1 are exactly that many weeks apart.", "quantifier": "every year 1..9999", "why_tests_cant": "Tests cover six years of a 400-year cycle.", "anchors": ["src/calcore/isoweek.py:getWeeksInYear", "src/calcore/isoweek.py:weeknr2datetime"]}
{"id": "C17", "title": "Merging periods preserves the covered time", "statement": "removeOverlaps returns a list of periods that covers exactly the instants covered by its input.", "quantifier": "every finite list of (start, end) pairs in any order, with duplicates, touching, nested or even inverted pairs", "why_tests_cant": "The input is an arbitrary-length list.", "anchors": ["src/calcore/util.py:removeOverlaps"]}
{"id": "C18", "title": "Merged periods are sorted, disjoint and canonical", "statement": "The output of removeOverlaps on periods with start <= end is strictly sorted, consecutive periods are separated by a gap, and for non-empty periods any two inputs covering the same instants give the identical output (so order and duplicates in the input do not matter; it is idempotent).", "quantifier": "every finite list of pairs", "why_tests_cant": "Arbitrary-length lists and pairs of lists.", "anchors": ["src/calcore/util.py:removeOverlaps"]}
{"id": "C19", "title": "Period membership is half-open interval overlap", "statement": "A timed object with positive duration is considered in a (possibly open-ended) non-empty period exactly when some instant belongs both to [dtstart, dtstart+duration) and to [begin, end).", "quantifier": "every dtstart, duration and period, including None bounds", "why_tests_cant": "Continuum of boundary positions.", "anchors": ["src/calcore/cal.py:inPeriod", "src/calcore/interfaces.py:IStorageManager.getEvents"]}
{"id": "C20", "title": "Event queries return exactly the matching stored events", "statement": "getEvents(period, criteria) returns exactly the stored events that satisfy the criteria and overlap the period, each once, whatever the dictionary iteration order; an unbounded period returns every matching event.", "quantifier": "every storage content, iteration order, period and criteria", "why_tests_cant": "All storage contents and orders.", "anchors": ["src/calcore/cal.py:StorageBase.getEvents", "src/calcore/cal.py:StorageBase._getMatchingEvents", "src/calcore/cal.py:inPeriod"]}
{"id": "C21", "title": "Occurrence queries are exact and complete", "statement": "getOccurrences((b, e)) returns exactly, for each matching event, one occurrence (same duration and time of day as the event) for each date its rule yields (or its own start when it does not recur) that overlaps [b, e): stopping the expansion at the period's end misses none.", "quantifier": "every storage content, every rule with interval >= 1, every bounded period", "why_tests_cant": "Relates a truncated expansion to an unbounded one for all rules and durations.", "anchors": ["src/calcore/cal.py:EventBase.expand", "src/calcore/cal.py:StorageBase.getOccurrences"]}
{"id": "C22", "title": "Each day shows exactly the events that touch it", "statement": "getEventsInDay/getOccurrencesInDay of a day includes an event exactly when it overlaps that day; every event is visible on at least one day.", "quantifier": "every event (including instantaneous ones) and every day", "why_tests_cant": "Boundary cases at midnight and zero durations.", "anchors": ["src/calcore/cal.py:CalendarBase.getEventsInDay", "src/calcore/cal.py:CalendarBase.getOccurrencesInDay", "src/calcore/cal.py:inPeriod"]}
{"id": "C23", "title": "Segmentation preserves the covered time", "statement": "The segments produced from a list of occurrences cover exactly the instants of each occurrence that lie within the period, each instant of an occurrence by exactly one of its segments.", "quantifier": "every list of occurrences with non-negative durations, every period", "why_tests_cant": "Arbitrary numbers of days and boundary alignments.", "anchors": ["src/calcore/cal.py:segmentOccurrences"]}
{"id": "C24", "title": "Segments stay within one day and within the period", "statement": "Every segment returned lies within a single calendar day and within the period, and refers to the event of the occurrence it was cut from. Two times count as the same day exactly if both lie between one midnight and the next.", "quantifier": "every list of occurrences with non-negative duration, every period", "why_tests_cant": "Arbitrary spans and alignments.", "anchors": ["src/calcore/cal.py:segmentOccurrences", "src/calcore/interfaces.py:IStorageManager.getOccurrencesSegmented", "src/calcore/cal.py:sameDay"]}
{"id": "C25", "title": "Segmentation yields no empty pieces", "statement": "An occurrence of positive duration is split only into pieces of positive duration.", "quantifier": "every occurrence of positive duration and every period", "why_tests_cant": "Only specific alignments (an end exactly at midnight inside the period) fail.", "anchors": ["src/calcore/cal.py:segmentOccurrences"]}
{"id": "C26", "title": "Blocked periods are exact", "statement": "Within the queried period an instant is covered by getBlockedPeriods exactly when its time of day is outside the time window or some queried attendee has an occurrence covering it that is opaque, not marked 'CANCELED' (see C31 for the other spelling), and not declined or delegated by them.", "quantifier": "every storage content, attendee list, period, and time window", "why_tests_cant": "Requires composing search, expansion, segmentation, clipping and merging for all inputs.", "anchors": ["src/calcore/cal.py:StorageManagerBase.getBlockedPeriods"]}
{"id": "C27", "title": "Blocked periods are sorted and merged", "statement": "getBlockedPeriods returns a sorted list of well-formed periods (start <= end) with a gap between consecutive ones.", "quantifier": "every storage content, attendee list, period, and time window", "why_tests_cant": "Clipping produces inverted periods internally; that they never surface needs an argument over all inputs.", "anchors": ["src/calcore/cal.py:StorageManagerBase.getBlockedPeriods", "src/calcore/util.py:removeOverlaps"]}
{"id": "C28", "title": "Free periods are exactly the unblocked time", "statement": "getFreePeriods returns non-empty, sorted, disjoint periods inside the requested period that cover exactly the instants of the period that are not blocked.", "quantifier": "every storage content, attendee list, period and time window", "why_tests_cant": "Composition of the whole query stack; failing cases need a period bound that is not midnight.", "anchors": ["src/calcore/cal.py:StorageManagerBase.getFreePeriods"]}
{"id": "C29", "title": "The minimal duration only filters free periods", "statement": "getFreePeriods with a minimal duration returns exactly those of the periods returned without it that last at least that long, in the same order.", "quantifier": "every storage content, attendee list, period, time window and minimal duration", "why_tests_cant": "Arbitrary lists.", "anchors": ["src/calcore/cal.py:StorageManagerBase.getFreePeriods"]}
{"id": "C30", "title": "More attendees never means more free time", "statement": "Adding attendees to a free-time query can only add blocked time and remove free time, and the order and repetition of attendees does not matter.", "quantifier": "every storage content, all pairs of attendee lists with one included in the other, period and time window", "why_tests_cant": "Relates two queries over all contents.", "anchors": ["src/calcore/cal.py:StorageManagerBase.getBlockedPeriods", "src/calcore/cal.py:StorageManagerBase.getFreePeriods"]}
{"id": "C31", "title": "Cancelled events do not block time", "statement": "An event whose status says it is cancelled blocks nobody's time, however it entered the calendar.", "quantifier": "every event, including events imported from iCalendar where the status is spelled CANCELLED", "why_tests_cant": "Needs the set of all possible status values, including imported ones.", "anchors": ["src/calcore/cal.py:StorageManagerBase.getBlockedPeriods", "src/calcore/cal.py:CalendarEventStatusVocabulary", "src/calcore/cal.py:CalendarBase._importEventSpecification", "src/calcore/interfaces.py:IStorageManager.createEvent"]}
{"id": "C32", "title": "Search criteria mean what they say", "statement": "An event matches criteria exactly when it is in one of the given categories (if given), has the given organizer (if given), and some single listed attendee takes part in it with the given status and role (if given); a criterion left None does not restrict.", "quantifier": "every event and every criteria combination", "why_tests_cant": "Arbitrary participant maps and lists.", "anchors": ["src/calcore/cal.py:SearchCriteria._match", "src/calcore/interfaces.py:ISearchCriteria"]}
{"id": "C33", "title": "Cloning criteria overrides the given ones", "statement": "criteria.clone(...) returns criteria in which each argument given replaces the original's value and the others are kept.", "quantifier": "every criteria and every argument combination", "why_tests_cant": "All combinations of set and unset fields.", "anchors": ["src/calcore/cal.py:SearchCriteria.clone", "src/calcore/interfaces.py:ISearchCriteria.clone"]}
{"id": "C34", "title": "A calendar shows only its own attendees' events", "statement": "Events and occurrences obtained through a calendar or an attendee, with whatever extra criteria, involve at least one of the calendar's attendees (resp. that attendee); adding an attendee makes all their events visible and removing one hides events that involve no remaining attendee.", "quantifier": "every storage content, attendee set and criteria", "why_tests_cant": "Quantifies over all criteria passed in, including ones carrying their own attendees.", "anchors": ["src/calcore/cal.py:CalendarBase.getEvents", "src/calcore/cal.py:AttendeeBase.getEvents", "src/calcore/cal.py:CalendarBase.addAttendee", "src/calcore/cal.py:CalendarBase.removeAttendee", "src/calcore/interfaces.py:ICalendar"]}
{"id": "C35", "title": "All-day events cover whole days", "statement": "Creating an all-day event moves its start back to midnight and rounds a non-negative duration up to the smallest positive number of whole days.", "quantifier": "every start and every duration (None or >= 0)", "why_tests_cant": "Continuum of durations.", "anchors": ["src/calcore/cal.py:EventBase.alldayAdjust", "src/calcore/cal.py:EventBase.__init__"]}
{"id": "C36", "title": "Inviting never downgrades a participant", "statement": "invite(attendees) makes every listed attendee a participant; newly invited ones get NEEDS-ACTION and REQ-PARTICIPANT, those already participating keep status and role, nobody else is affected, and repeating the invitation changes nothing.", "quantifier": "every event state and every attendee list (with repetitions)", "why_tests_cant": "Arbitrary histories and lists.", "anchors": ["src/calcore/cal.py:EventBase.invite"]}
{"id": "C37", "title": "Participation status changes are observable exactly once", "statement": "setParticipationStatus changes only the given attendee's status to the given value; exactly one change notification carrying the old and new status is sent if the status differs and none otherwise; an unknown status is rejected without any effect. Replaying the notifications of any history reconstructs every current status.", "quantifier": "every event, attendee, status and every history of operations", "why_tests_cant": "Histories are unbounded.", "anchors": ["src/calcore/cal.py:EventBase.setParticipationStatus", "src/calcore/cal.py:EventBase._setParticipationStatus", "src/calcore/events.py:EventParticipationChangeEvent"]}
{"id": "C38", "title": "An attendee can always be removed from an event", "statement": "Setting the participation status of any current attendee to None removes them (no status, no role, not listed) and raises nothing.", "quantifier": "every event reachable by any history of API calls, every attendee", "why_tests_cant": "Depends on how the attendee got onto the event, i.e. on the history.", "anchors": ["src/calcore/cal.py:EventBase.setParticipationStatus", "src/calcore/cal.py:EventBase._setParticipationStatus", "src/calcore/interfaces.py:IInvitableCalendarEvent.setParticipationStatus"]}
{"id": "C39", "title": "Attendee listings are consistent", "statement": "getAttendeeIds(status, role) returns, each once, exactly the ids of attendees that have a status, restricted to those with the given status and role, and agrees with hasAttendee/getParticipationStatus/getParticipationRole; it raises nothing.", "quantifier": "every event reachable by any history of API calls, every filter", "why_tests_cant": "Depends on the history.", "anchors": ["src/calcore/cal.py:EventBase.getAttendeeIds", "src/calcore/cal.py:EventBase.hasAttendee"]}
{"id": "C40", "title": "Statuses and roles stay within the documented values", "statement": "At every point of every history each stored participation status and role is one of the documented values.", "quantifier": "every history of API calls including imports", "why_tests_cant": "Histories and imported data are unbounded.", "anchors": ["src/calcore/cal.py:EventBase.setParticipationStatus", "src/calcore/cal.py:EventBase.setParticipationRole", "src/calcore/cal.py:EventSpecification.setOnObject", "src/calcore/interfaces.py:IInvitableCalendarEvent"]}
{"id": "C41", "title": "Events compare consistently", "statement": "Events sort by start time and then by unique id; two events are equal only if they have the same start and id, and equal events hash alike.", "quantifier": "all pairs and triples of events", "why_tests_cant": "Quantifies over all pairs of events.", "anchors": ["src/calcore/cal.py:EventBase.__cmp__", "src/calcore/cal.py:EventBase.__hash__"]}
{"id": "C42", "title": "The storage behaves like a map from unique id to event", "statement": "After any history, getEvent(id)/hasEvent(id) report the event most recently created under id and not deleted since (KeyError otherwise); creating or deleting one id does not affect others; deleting an absent event raises KeyError and changes nothing; one creation/deletion notification is sent per successful call.", "quantifier": "every history of create/delete/modify/import calls", "why_tests_cant": "Histories are unbounded.", "anchors": ["src/calcore/cal.py:StorageBase.createEvent", "src/calcore/cal.py:StorageBase.deleteEvent", "src/calcore/cal.py:StorageBase.getEvent", "src/calcore/cal.py:StorageManagerBase.hasEvent"]}
{"id": "C43", "title": "Generated unique ids are unique", "statement": "Creating an event without an explicit id never reuses the id of a stored event, so it never replaces an existing event.", "quantifier": "every history of creations and deletions and every clock reading", "why_tests_cant": "Collisions need a deletion and a creation within one clock second.", "anchors": ["src/calcore/cal.py:StorageBase.createEvent", "src/calcore/cal.py:addrspec_unique_id", "src/calcore/cal.py:iso8601", "src/calcore/interfaces.py:IStorage.createEvent"]}
{"id": "C44", "title": "The creator of an event is its accepted organizer", "statement": "An event created through an attendee has that attendee as organizer, ACCEPTED and REQ-PARTICIPANT, so it appears in that attendee's events and organized events; getOrganizedEvents returns exactly the stored events organized by the attendee.", "quantifier": "every storage content and attendee", "why_tests_cant": "All storage contents.", "anchors": ["src/calcore/cal.py:AttendeeBase.createEvent", "src/calcore/cal.py:EventSpecification.setOnObject", "src/calcore/cal.py:AttendeeBase.getOrganizedEvents"]}
{"id": "C45", "title": "Importing never touches events outside the calendar", "statement": "An import changes only events that were visible in the calendar (for the given period and criteria) or newly created ones; a uid that exists elsewhere is left alone, whether or not the import succeeds.", "quantifier": "every system state, every calendar, every parsed iCalendar content", "why_tests_cant": "All contents and states, including failing imports.", "anchors": ["src/calcore/cal.py:CalendarBase.import_", "src/calcore/cal.py:CalendarBase._importExistingEvent", "src/calcore/cal.py:CalendarBase._importNewEvent"]}
{"id": "C46", "title": "Only synchronizing imports delete, and exactly the missing events", "statement": "Without synchronize an import deletes nothing; with synchronize a successful import leaves, of the events that were visible, exactly those whose uid is in the text, and creates every uid that did not exist.", "quantifier": "every system state and parsed content", "why_tests_cant": "All contents and states.", "anchors": ["src/calcore/cal.py:CalendarBase.import_"]}
{"id": "C47", "title": "Export followed by import changes nothing", "statement": "Importing a calendar's own export leaves every event unchanged and sends no modification notices.", "quantifier": "every calendar content", "why_tests_cant": "All event contents, recurrences and participation states.", "anchors": ["src/calcore/cal.py:CalendarBase.export", "src/calcore/cal.py:EventBase.export", "src/calcore/cal.py:CalendarBase.import_", "src/calcore/cal.py:CalendarBase._importEventSpecification"]}
{"id": "C48", "title": "Start, end and duration of imported events", "statement": "An imported event's start and duration follow the iCalendar rules: DTEND wins over DURATION, a DATE start makes an all-day event, a missing end means one day for a DATE start and zero for a DATE-TIME start, and end = start + duration.", "quantifier": "every combination of DTSTART/DTEND/DURATION values", "why_tests_cant": "Value combinations are unbounded.", "anchors": ["src/calcore/cal.py:CalendarBase._getDtstartDuration"]}
{"id": "C49", "title": "willModify predicts modification", "statement": "spec.willModify(event) is false exactly when applying the specification would leave the event as it is, so an import neither loses changes nor reports spurious ones.", "quantifier": "every specification and event", "why_tests_cant": "All combinations of attributes and participants.", "anchors": ["src/calcore/cal.py:EventSpecification.willModify", "src/calcore/cal.py:EventSpecification.setOnObject", "src/calcore/cal.py:CalendarBase._importExistingEvent"]}
{"id": "C50", "title": "Private export reveals only time information", "statement": "export(private=True) of two events that agree on times, recurrence, transparency, id and access class is identical: title, description, location, categories, document, status and participants do not influence it.", "quantifier": "all pairs of events", "why_tests_cant": "Non-interference is a two-run property.", "anchors": ["src/calcore/cal.py:EventBase.export"]}
{"id": "C51", "title": "Line ending repair", "statement": "The import line-ending repair turns a text with bare newlines into the same text with CRLF line endings, leaves CRLF text alone and is idempotent.", "quantifier": "every text", "why_tests_cant": "All strings.", "anchors": ["src/calcore/cal.py:CalendarBase._repairText"]}
{"id": "C52", "title": "iCalRepresentation describes the rule", "statement": "iCalRepresentation(dtstart) returns an RRULE line from which frequency, interval, count, until and weekdays of the rule can be read back, plus an EXDATE line listing exactly the exceptions when there are any.", "quantifier": "every rule and dtstart", "why_tests_cant": "All rules.", "anchors": ["src/calcore/recurrent.py:BasicRecurrenceRule.iCalRepresentation", "src/calcore/recurrent.py:BasicRecurrenceRule._iCalArgs", "src/calcore/recurrent.py:ical_date"]}
{"id": "C53", "title": "A failed import has no effect", "statement": "If importing raises an error, the calendar is as it was before.", "quantifier": "every system state and parsed content", "why_tests_cant": "Crash points within a multi-event import.", "anchors": ["src/calcore/cal.py:CalendarBase.import_", "src/calcore/cal.py:CalendarBase._importExistingEvent", "src/calcore/cal.py:EventSpecification.setOnObject"]}
{"id": "C54", "title": "Imported recurrence rules mean what the RRULE says", "statement": "The rule built from an RRULE has the RRULE's frequency, interval, count, until and (weekly) weekdays and is as valid as a constructed one.", "quantifier": "every RRULE value", "why_tests_cant": "All RRULEs, including ones the constructor would reject.", "anchors": ["src/calcore/cal.py:CalendarBase._getRecurrenceRule"]}
{"id": "C55", "title": "Attendee search works", "statement": "findByName(query, type) returns exactly the attendees whose name contains the query and (if given) have the type; getAttendeesOfType and getAttendeeTypes answer without raising.", "quantifier": "every attendee source content and query", "why_tests_cant": "All contents; the code path is not covered by any test.", "anchors": ["src/calcore/cal.py:SimpleAttendeeSource.findByName", "src/calcore/cal.py:SimpleAttendeeSource.getAttendeesOfType", "src/calcore/cal.py:SimpleAttendeeSource.getAttendeeTypes", "src/calcore/interfaces.py:IAttendeeSource.findByName"]}
{"id": "C56", "title": "Rounding a duration up to days", "statement": "roundtimedelta(td) is the smallest whole number of days not less than td.", "quantifier": "every timedelta, negative ones included", "why_tests_cant": "Continuum of values.", "anchors": ["src/calcore/cal.py:roundtimedelta"]}
{"id": "C57", "title": "Free periods are as long as possible", "statement": "No two periods returned by getFreePeriods touch each other, so a stretch of unblocked time is offered as one period and is found whenever it is at least as long as the minimal duration.", "quantifier": "every storage content, attendee list, period, time window and minimal duration", "why_tests_cant": "Depends on how every combination of events, nights and zero-length events is merged.", "anchors": ["src/calcore/cal.py:StorageManagerBase.getFreePeriods", "src/calcore/cal.py:StorageManagerBase.getBlockedPeriods"]}
{"id": "C58", "title": "Organized events are the attendee's own", "statement": "getOrganizedEvents(criteria) of an attendee returns exactly the events organized by that attendee that satisfy the criteria.", "quantifier": "every storage content, attendee and criteria", "why_tests_cant": "Quantifies over all criteria passed in, including ones naming another organizer.", "anchors": ["src/calcore/cal.py:AttendeeBase.getOrganizedEvents", "src/calcore/cal.py:SearchCriteria.clone"]}
{"id": "C59", "title": "An all-day event covers the time it was given", "statement": "For an all-day event, after adjustment the whole days it occupies include the whole interval from the given start to the given start plus duration.", "quantifier": "all start times and durations", "why_tests_cant": "The loss only shows for combinations of start time and duration whose end crosses a midnight; the space of (start, duration) pairs cannot be enumerated.", "anchors": ["src/calcore/cal.py:EventBase.alldayAdjust", "src/calcore/cal.py:EventBase.__init__"]}
{"id": "C60", "title": "Deleting an event object deletes that event", "statement": "deleteEvent(event) removes the given event and never another one: if the given object is no longer the stored event, nothing is removed.", "quantifier": "all histories of operations, all event objects handed out so far", "why_tests_cant": "Requires a history in which an id is deleted and created again, or created twice, while an old object is still held; histories are unbounded.", "anchors": ["src/calcore/cal.py:StorageManagerBase.deleteEvent", "src/calcore/cal.py:StorageBase.deleteEvent"]}
{"id": "C61", "title": "An import brings in what the text says", "statement": "After a successful import of events with distinct ids, every event of the text that the calendar shows or that is new has the text's title, description, location, status, categories, transparency, access, document, recurrence rule and organizer (defaults where the text is silent: empty text, TENTATIVE, PUBLIC, the calendar's main attendee).", "quantifier": "every reachable system state, calendar, period, search criteria and parsed content", "why_tests_cant": "All combinations of present and missing properties, of known and new events in one text.", "anchors": ["src/calcore/cal.py:CalendarBase.import_", "src/calcore/cal.py:CalendarBase._importEventSpecification", "src/calcore/cal.py:EventSpecification.setOnObject", "src/calcore/cal.py:StorageManagerBase.createEventFromSpecification"]}
{"id": "C62", "title": "Exported events can be carried over to another store", "statement": "Importing one calendar's export through a calendar of another store creates each event that the other store does not know, with the same id, times, texts, status, recurrence rule, categories, transparency, access and document.", "quantifier": "every pair of reachable system states, calendars and periods", "why_tests_cant": "All event contents and all states of both stores.", "anchors": ["src/calcore/cal.py:CalendarBase.export", "src/calcore/cal.py:EventBase.export", "src/calcore/cal.py:CalendarBase.import_", "src/calcore/cal.py:CalendarBase._importNewEvent"]}
{"id": "C63", "title": "Who takes part in an imported event", "statement": "After a successful import of events with distinct ids, an event new to the calendar has exactly the participants its text lists (the last line for a person wins) with the text's status and role (NEEDS-ACTION and REQ-PARTICIPANT where silent), plus the organizer; in an already known event every listed person has the text's status and role and everyone not listed keeps theirs.", "quantifier": "every reachable system state, calendar, period, search criteria and parsed content", "why_tests_cant": "All lists of participants, repeated and missing ones, all earlier states of the event and all combinations of parameters.", "anchors": ["src/calcore/cal.py:CalendarBase.import_", "src/calcore/cal.py:CalendarBase._importEventSpecification", "src/calcore/cal.py:EventSpecification.setOnObject"]}
{"id": "C64", "title": "Texts listing people the attendee source does not know can be imported", "statement": "An import succeeds although the text mentions participants or organizers that the attendee source does not know; an unknown organizer is replaced by the calendar's main attendee, an unknown participant is skipped.", "quantifier": "every reachable system state, calendar and parsed content", "why_tests_cant": "Quantifies over all texts and all states of the attendee source.", "anchors": ["src/calcore/cal.py:CalendarBase._importEventSpecification", "src/calcore/cal.py:SimpleAttendeeSource.getAttendeeFromSpec", "src/calcore/cal.py:EventSpecification.setOnObject"]}
{"id": "C65", "title": "A well-formed text imports without error", "statement": "If every component of a text has an id, a start, known participants and a readable recurrence rule, and the calendar has a main attendee and can be listed, the import succeeds. An import of a text with distinct ids succeeds exactly if the calendar can be listed, every component has an id, those about events not yet stored are well formed, and those about events of the calendar can be read, list only known people, and either ask for nothing new or ask for documented roles and do not leave an otherwise agreeing event without organizer.", "quantifier": "every reachable system state, calendar, period, search criteria and well-formed content", "why_tests_cant": "Totality over all states and all texts.", "anchors": ["src/calcore/cal.py:CalendarBase.import_", "src/calcore/cal.py:CalendarBase._importNewEvent", "src/calcore/cal.py:CalendarBase._importExistingEvent"]}
{"id": "C66", "title": "Importing the same text again changes nothing", "statement": "When a text has been imported successfully, importing it once more through the same calendar leaves every event, the store and all participations as they are, and reports no modification.", "quantifier": "every reachable system state, calendar, period, search criteria and parsed content, synchronizing or not", "why_tests_cant": "Quantifies over all texts and all earlier states; the second import sees other known events than the first.", "anchors": ["src/calcore/cal.py:CalendarBase.import_", "src/calcore/cal.py:CalendarBase._importExistingEvent", "src/calcore/cal.py:EventSpecification.willModify", "src/calcore/cal.py:EventSpecification.setOnObject"]}
{"id": "C67", "title": "A calendar holds exactly the attendees added and not removed since", "statement": "After any history of successful calls, the attendees of a calendar are those added to it and not removed from it since, each listed once; a new calendar is empty, calendars do not influence each other, removing somebody who is not in raises KeyError and changes nothing, and the main attendee is one of the members (None exactly when there are none). Listing fails exactly when a member is unknown to the attendee source.", "quantifier": "every history of operations, every calendar and attendee", "why_tests_cant": "Quantifies over all interleavings of additions, removals, imports and other operations on any number of calendars.", "anchors": ["src/calcore/cal.py:CalendarBase.addAttendee", "src/calcore/cal.py:CalendarBase.removeAttendee", "src/calcore/cal.py:CalendarBase.getAttendees", "src/calcore/cal.py:CalendarBase.getMainAttendee", "src/calcore/cal.py:CalendarBase.getMainAttendeeId"]}
{"id": "C68", "title": "An attendee once registered stays known under the last name and type given", "statement": "After any history an attendee can be looked up exactly if they were registered before; the lookup gives the attendee asked for, with the type of the last registration, and registering somebody changes nobody else, no event and no calendar.", "quantifier": "every history of operations and every attendee id", "why_tests_cant": "Quantifies over all histories, including imports mentioning unknown people.", "anchors": ["src/calcore/cal.py:SimpleAttendeeSource.createIndividual", "src/calcore/cal.py:SimpleAttendeeSource.createRoom", "src/calcore/cal.py:SimpleAttendeeSource.getAttendee", "src/calcore/cal.py:AttendeeBase.getAttendeeType"]}
{"id": "C69", "title": "A calendar shows exactly its members' stored events of the period", "statement": "After any history, the events of a calendar for a period are, each once and by reference to the stored object, the stored events that lie in the period and in which a member of the calendar takes part; with criteria, those the criteria want. The listing succeeds whenever all members are known and all stored events end within the calendar.", "quantifier": "every history of operations, calendar, period (open or not) and search criteria", "why_tests_cant": "Relates the listing to the whole history: who joined and left the calendar, which events were created, deleted, imported and changed.", "anchors": ["src/calcore/cal.py:CalendarBase.getEvents", "src/calcore/cal.py:StorageBase.getEvents", "src/calcore/cal.py:SearchCriteria._match", "src/calcore/cal.py:inPeriod"]}
{"id": "C70", "title": "Repeated ids in an imported text", "statement": "When an imported text contains several components with the same id, an event the calendar shows ends up as the last of them says (each one seeing the participants left by those before it), a new event is made from the first of them and the others are ignored, and an event the calendar does not show is left alone.", "quantifier": "every reachable state, calendar, period, criteria and text, any number of repetitions at any places", "why_tests_cant": "Texts of any length with repetitions anywhere.", "anchors": ["src/calcore/cal.py:CalendarBase.import_", "src/calcore/cal.py:CalendarBase._importExistingEvent", "src/calcore/cal.py:CalendarBase._importNewEvent"]}
{"id": "C71", "title": "What a failed import leaves behind", "statement": "If an import raises, then either nothing happened, or exactly the components before the failing one have been imported as an import of just those (without synchronizing) would do, nothing has been deleted, and the failing component either did nothing or changed only the event of its own id: all its attributes as the text says, and the participants up to the first ATTENDEE line whose address is unknown or whose role is not one of the four; no modification is announced for it.", "quantifier": "every reachable state, parsed content, period, criteria, with and without synchronizing", "why_tests_cant": "Every position of the failing component and of the failing line in texts of any length.", "anchors": ["src/calcore/cal.py:CalendarBase.import_", "src/calcore/cal.py:CalendarBase._importExistingEvent", "src/calcore/cal.py:EventSpecification.setOnObject"]}
{"id": "C72", "title": "What deleting an event object does", "statement": "deleteEvent(event) removes whatever is stored under the id of the given object and nothing else, announces that id, and succeeds exactly when the id is stored (otherwise KeyError and no effect); what it removes is the given object exactly when no object with the same id was created after it.", "quantifier": "every reachable state and every object handed out so far", "why_tests_cant": "Histories are unbounded.", "anchors": ["src/calcore/cal.py:StorageManagerBase.deleteEvent", "src/calcore/cal.py:StorageBase.deleteEvent"]}
{"id": "C73", "title": "Exactly what a day shows", "statement": "getEventsInDay returns exactly the wanted events whose end is after the beginning of the day and whose start is before its end, so an event is on some day unless it is an instant at midnight; getOccurrencesInDay returns exactly the non-empty parts in the day of the wanted occurrences, and the instants strictly inside the day.", "quantifier": "all storage contents, attendees, criteria and days", "why_tests_cant": "A continuum of times.", "anchors": ["src/calcore/cal.py:CalendarBase.getEventsInDay", "src/calcore/cal.py:CalendarBase.getOccurrencesInDay", "src/calcore/cal.py:CalendarBase.getEvents"]}
{"id": "C74", "title": "Exactly how an occurrence is cut at midnights", "statement": "Segmenting an occurrence in a period gives exactly its non-empty parts in the days of the period, and besides one empty piece at its end if that lies strictly inside the period and is a midnight or the occurrence has no length.", "quantifier": "all occurrences with a duration >= 0 and all periods", "why_tests_cant": "A continuum of times and any number of days.", "anchors": ["src/calcore/cal.py:segmentOccurrences", "src/calcore/cal.py:CalendarBase.getOccurrencesSegmented"]}
{"id": "C75", "title": "Which criteria a query really uses", "statement": "Queries of calendars, attendees and occurrences return exactly the events in the period that meet the effective criteria, where the criteria of the calendar or attendee replace those passed in only where the passed ones are not in force.", "quantifier": "every reachable state, calendar, attendee, period and criteria, in force or not", "why_tests_cant": "All combinations of criteria given and not given.", "anchors": ["src/calcore/cal.py:SearchCriteria.clone", "src/calcore/cal.py:CalendarBase.getEvents", "src/calcore/cal.py:AttendeeBase.getEvents", "src/calcore/cal.py:AttendeeBase.getOrganizedEvents", "src/calcore/cal.py:StorageBase.getEvents"]}
{"id": "C76", "title": "When generated ids coincide", "statement": "Two ids generated by the same store are equal exactly when they were generated in the same second with the same number of stored events; a creation without an id replaces a stored event exactly when that id is stored.", "quantifier": "all pairs of creations in all histories", "why_tests_cant": "Timing and history dependent.", "anchors": ["src/calcore/cal.py:addrspec_unique_id", "src/calcore/cal.py:StorageBase.createEvent", "src/calcore/cal.py:StorageManagerBase.createEventFromSpecification"]}
{"id": "C77", "title": "What willModify compares", "statement": "willModify answers no exactly when all attributes are equal, the organizer is the one asked for and has accepted as REQ-PARTICIPANT, and everybody listed has the status listed and the role REQ-PARTICIPANT; it raises (AttributeError) exactly when the attributes agree and it then meets an organizer or participant that is nobody before a difference; otherwise it answers yes.", "quantifier": "every specification and event", "why_tests_cant": "All combinations of attributes and participants.", "anchors": ["src/calcore/cal.py:EventSpecification.willModify"]}
{"id": "C78", "title": "Removing a participant and listing by role", "statement": "Setting the status of a participant to None always leaves them without status and role; it succeeds, with one notification, exactly when they had a role, and raises KeyError without notification otherwise. Listing by role answers exactly when every participant that passes the status filter has a role.", "quantifier": "every event, participant, status and role filter", "why_tests_cant": "All participation tables.", "anchors": ["src/calcore/cal.py:EventBase.setParticipationStatus", "src/calcore/cal.py:EventBase.getAttendeeIds"]}
{"id": "C79", "title": "When an adjusted all-day event covers the given time", "statement": "An all-day event made from a start and a duration covers the given interval exactly when the start is a midnight, or the duration is zero, or the duration is no whole number of days and the time of day of the start plus the remainder of the duration is at most one day.", "quantifier": "all start times and durations", "why_tests_cant": "A continuum of (start, duration) pairs.", "anchors": ["src/calcore/cal.py:EventBase.alldayAdjust"]}
{"id": "C80", "title": "Every expansion, including those that raise", "statement": "Expanding a repeating rule always ends. Either it finishes, having yielded exactly the rule's days up to the first one cut off by end date, count or until; or it raises OverflowError or ValueError, having yielded exactly the rule's days up to that point. It raises if and only if, before any day is cut off, the rule has to step to a day that does not exist: past 9999-12-31, or, for a yearly rule, a 29 February in a year that has none (for last weekdays of a month, already when the first such weekday of the following month would lie past 9999-12-31).", "quantifier": "every valid repeating rule whose until is a date, every start in the calendar, every end date or none", "why_tests_cant": "Whether an expansion raises depends on the whole calendar up to year 9999 and on every interval, count and exception list.", "anchors": ["src/calcore/recurrent.py:BasicRecurrenceRule.apply", "src/calcore/recurrent.py:WeeklyRecurrenceRule.apply", "src/calcore/recurrent.py:MonthlyRecurrenceRule.apply", "src/calcore/recurrent.py:YearlyRecurrenceRule._nextRecurrence", "src/calcore/recurrent.py:monthindex"]}
{"id": "C81", "title": "What the attendee list of a specification does", "statement": "Setting a specification on an event succeeds exactly when every attendee entry names somebody, gives one of the four documented roles, and, if it gives no status, is about somebody who takes part at that point. Otherwise it raises at the first entry that fails: AssertionError for the role, AttributeError for nobody, KeyError for somebody not taking part (whose role is set all the same). Afterwards each person's status and role are those of the last accepted entry about them, where an entry without status withdraws both; without such an entry they are as before, except that the organizer named by the specification is an accepted required participant. The same holds for events created with a specification.", "quantifier": "every reachable state, every event, every specification, also those that fail part-way", "why_tests_cant": "Attendee lists are arbitrarily long, name people repeatedly and fail at any position.", "anchors": ["src/calcore/cal.py:EventSpecification.setOnObject", "src/calcore/cal.py:EventBase._setParticipationStatus", "src/calcore/cal.py:EventBase.setParticipationRole", "src/calcore/cal.py:EventBase.__init__"]}
{"id": "C82", "title": "The choices offered to forms are those the library knows", "statement": "The vocabularies for status, access, monthly recurrence and weekdays can be built and offer no value twice; in general a vocabulary can be built exactly if no value and no token repeats, and building it raises ValueError otherwise. A monthly rule is accepted exactly for the offered monthly values and a weekly rule exactly for lists of offered weekdays, whatever the rest of the rule. Of the offered statuses, exactly CANCELED frees the time of somebody who accepted an opaque event.", "quantifier": "all strings, all lists of integers, all acceptable other parts of a rule, all events", "why_tests_cant": "Which strings and weekday lists are refused ranges over infinitely many values.", "anchors": ["src/calcore/cal.py:CalendarVocabularyFactory", "src/calcore/cal.py:CalendarEventStatusVocabulary", "src/calcore/cal.py:CalendarMontlyRecurrenceTypeVocabulary", "src/calcore/cal.py:CalendarWeekdaysVocabulary", "src/calcore/recurrent.py:WeeklyRecurrenceRule._validate", "src/calcore/recurrent.py:MonthlyRecurrenceRule._validate"]}
{"id": "C83", "title": "The printed form of a rule makes the rule", "statement": "The repr of a recurrence rule is a Python expression; evaluating it calls the rule's class with arguments that give an equal rule. Two rules print alike only if they are equal.", "quantifier": "every rule a constructor accepts whose until and exceptions are dates or datetimes", "why_tests_cant": "Rules have unbounded exception and weekday lists; tuples of one element, absent values and datetimes without seconds print specially.", "anchors": ["src/calcore/recurrent.py:BasicRecurrenceRule.__repr__", "src/calcore/recurrent.py:WeeklyRecurrenceRule.__repr__", "src/calcore/recurrent.py:MonthlyRecurrenceRule.__repr__"]}
{"id": "C84", "title": "An operation changes only the event it is called on, and an import announces what it changes", "statement": "Inviting, setting a status or a role, adjusting, assigning and applying a specification change no event object but the one they are called on; every other operation except an import changes no existing event object at all, whatever its outcome. An import that succeeds never changes the id of an event object and sends an event-modified notification for every object it changed.", "quantifier": "all states, all operations with all arguments, all parsed texts", "why_tests_cant": "The frame must hold for every other event in stores of any size, and for operations that raise half way.", "anchors": ["src/calcore/cal.py:CalendarBase.import_", "src/calcore/cal.py:CalendarBase._importExistingEvent", "src/calcore/cal.py:EventBase", "src/calcore/cal.py:EventSpecification.setOnObject", "src/calcore/cal.py:StorageManagerBase.createEventFromSpecification"]}
{"id": "C85", "title": "What an import does and announces, in order", "statement": "A successful import of events with distinct ids goes through the text in order: an event shown by the calendar is either left alone silently or changed and announced as modified, one the store does not know is created and announced as created, one the store knows but the calendar does not show is left alone silently. Then a synchronizing import deletes, and announces once each, exactly the shown events the text does not name, and no other import deletes anything. Whatever the outcome, an event that the text does not name is never changed.", "quantifier": "every reachable system state, calendar, period, search criteria and parsed content", "why_tests_cant": "All texts of any length, all states of the store and all combinations of shown, hidden and unknown events.", "anchors": ["src/calcore/cal.py:CalendarBase.import_", "src/calcore/cal.py:CalendarBase._importExistingEvent", "src/calcore/cal.py:CalendarBase._importNewEvent", "src/calcore/cal.py:EventSpecification.willModify", "src/calcore/cal.py:EventSpecification.setOnObject"]}
{"id": "C86", "title": "Every storage behaves as if it were the only one", "statement": "With any number of storages, storage managers and calendars over one attendee source, a call changes at most the storage it goes to (the one its manager, or the manager of its calendar, was given last), does, announces and returns there what it would if that storage were the only one, and what is seen through any storage is always a state that a single storage can be in. deleteEvent goes by the id of the event it is given, even if that event is in another storage; if the manager's storage has no such id it raises KeyError and nothing changes.", "quantifier": "all sequences of calls, any number of storages, managers, calendars and events", "why_tests_cant": "A test can show two storages side by side for a few calls; that no sequence of calls lets one storage see or disturb another needs an invariant over all interleavings of calls on all of them.", "anchors": ["src/calcore/cal.py:StorageManagerBase", "src/calcore/cal.py:StorageBase", "src/calcore/cal.py:Calendar"]}
{"id": "C87", "title": "A manager is a window on the storage it was given last", "statement": "After setStorage a manager, and every calendar made with it, answers from that storage only: it has exactly the events that the calls which went to that storage, through whichever manager or calendar and whenever, announced as created and not as deleted since. Before a manager is given a storage every call through it raises and changes nothing.", "quantifier": "all sequences of calls, including any number of setStorage calls on any managers", "why_tests_cant": "The set of events seen depends on the whole sequence of calls through all managers and on when each manager was switched; tests fix one sequence.", "anchors": ["src/calcore/cal.py:StorageManagerBase.setStorage", "src/calcore/cal.py:StorageManagerBase.hasEvent", "src/calcore/cal.py:CalendarBase.getEvents"]}
{"id": "C88", "title": "Different storages make different ids", "statement": "Ids made by different storages never coincide.", "quantifier": "all pairs of calls that create an event without a given id, at any times, in any states", "why_tests_cant": "Quantifies over all storage ids, times and numbers of events; ids are glued together from parts that may contain the separator.", "anchors": ["src/calcore/cal.py:StorageBase.createEvent", "src/calcore/cal.py:addrspec_unique_id"]}
{"id": "C89", "title": "Changing the categories or the rule of one event in place changes no other event", "statement": "Adding a category to event.categories, or setting an attribute of event.recurrence, changes what that event shows and no other event.", "quantifier": "all sequences of making objects, specifications and events, setting specifications on events, assigning, importing and changing in place", "why_tests_cant": "Which events share an object depends on the whole history, including that setOnObject keeps an equal object instead of replacing it; tests fix one history.", "anchors": ["src/calcore/cal.py:EventSpecification.setOnObject", "src/calcore/cal.py:StorageManagerBase.createEventFromSpecification", "src/calcore/cal.py:CalendarBase._importExistingEvent", "src/calcore/recurrent.py:BasicRecurrenceRule.__eq__"]}
{"id": "C90", "title": "Exactly which expansions end", "statement": "Expanding a recurrence rule from any start, with or without an end date, comes to an end (it stops or raises) exactly if the rule is not stuck, that is unless its interval is 0, the dates are found by adding the interval, and neither count, until nor the end date cuts it off at its first day; a stuck rule repeats its first day for ever. A query for occurrences answers or raises if no event it may look at is stuck, and never answers if one it must look at is.", "quantifier": "all rule objects whatever their attributes, all starts, all end dates, all lists of events", "why_tests_cant": "Non-termination cannot be observed by a test, and termination for all rules needs an argument by measure.", "anchors": ["src/calcore/recurrent.py:BasicRecurrenceRule.apply", "src/calcore/cal.py:StorageBase.getOccurrences"]}
{"id": "C91", "title": "Exactly what getFreePeriods returns", "statement": "The periods returned are the maximal stretches of time that is inside the days touched by the requested period, between the opening and the closing time and not blocked, cut at the starts of blocking events without length, preceded by at most one and followed by at most one period that does not belong there; these are absent exactly if the period ends at midnight and starts no later than the opening time. Two of the periods touch exactly at an event without length.", "quantifier": "all lists of events, attendees, periods and opening hours", "why_tests_cant": "Exact sets of instants over unbounded time and any number of overlapping events.", "anchors": ["src/calcore/cal.py:StorageManagerBase.getFreePeriods"]}
{"id": "C92", "title": "Exactly what one event adds to the blocked time", "statement": "Adding an event to those considered adds to the blocked time exactly the parts of its occurrences within the period if one of the attendees takes part without having declined or delegated, it is opaque and its status is not CANCELED, and nothing otherwise.", "quantifier": "all events, lists of other events, attendees, periods and opening hours", "why_tests_cant": "Quantifies over all other events and over all instants.", "anchors": ["src/calcore/cal.py:StorageManagerBase.getBlockedPeriods"]}
{"id": "C93", "title": "Every change of a participation status has a cause and is announced once", "statement": "Inviting and setParticipationStatus announce every status they change exactly once, with the old and the new status (except a removal that raises). A status changes otherwise only by setting a specification that names the person or by an import that shows the event; a status that is not a documented one comes from a specification or a text that gives it to that person.", "quantifier": "all histories, events and attendees", "why_tests_cant": "Statuses can change in many operations; that no other one touches them is an invariant over all histories.", "anchors": ["src/calcore/cal.py:EventBase.setParticipationStatus", "src/calcore/cal.py:EventBase.invite", "src/calcore/cal.py:EventSpecification.setOnObject"]}
{"id": "C94", "title": "Exactly what becomes of the creator of an event", "statement": "An attendee who creates an event is accepted and required, unless the attendee list of the specification says otherwise: then the last entry for them counts. They see the event among their own exactly unless that entry removes them.", "quantifier": "all states, specifications and attendees", "why_tests_cant": "The attendee list is of any length and may name anybody any number of times.", "anchors": ["src/calcore/cal.py:AttendeeBase.createEvent", "src/calcore/cal.py:EventSpecification.setOnObject"]}
{"id": "C95", "title": "Exactly what exporting a calendar and importing the result does", "statement": "It succeeds exactly if all events shown can be exported and there is a main attendee wherever one is needed. Then exactly the events are announced as modified that are not exportable without loss, and each of them is left with the parts that the text carries, the main attendee as organizer. Nothing at all changes exactly if all events shown are exportable.", "quantifier": "all reachable states, calendars, periods and criteria", "why_tests_cant": "All contents of events and rules at once.", "anchors": ["src/calcore/cal.py:CalendarBase.export", "src/calcore/cal.py:CalendarBase.import_"]}
{"id": "C96", "title": "Exactly what arrives in another store", "statement": "An exported event that the other store does not know arrives there with the data that the text carries, organized by the main attendee of the calendar, the only participant. It has the same public data exactly if it loses nothing on the way and is not a whole-day event of no length.", "quantifier": "all pairs of reachable states of two stores", "why_tests_cant": "All contents of events at once, in all states of both stores.", "anchors": ["src/calcore/cal.py:CalendarBase.export", "src/calcore/cal.py:CalendarBase._importNewEvent"]}
{"id": "C97", "title": "Exactly what the line ending repair does", "statement": "A text is left alone if it has just one line or if its first line is empty or ends in a carriage return; otherwise its lines are joined by CR LF.", "quantifier": "all texts", "why_tests_cant": "All texts, of any length and with any mixture of line ends.", "anchors": ["src/calcore/cal.py:CalendarBase._repairText"]}
{"id": "C98", "title": "Exactly when a rule has an iCalendar text, and what it says", "statement": "A valid rule has RRULE and EXDATE lines exactly if it has a frequency and neither until nor an exception is before 1900; reading the lines back gives the rule, except that a count of zero is lost. Otherwise the error raised is known, for every rule object.", "quantifier": "all valid rules and starts", "why_tests_cant": "All rules; an independent reader for the lines.", "anchors": ["src/calcore/recurrent.py:BasicRecurrenceRule.iCalRepresentation"]}
{"id": "C99", "title": "Exactly which RRULEs are accepted, which of them give valid rules, and what the others raise", "statement": "An RRULE is accepted exactly if its frequency is one of the four known ones, its weekdays are known (weekly) or not empty (monthly), and interval, count and until have a value where they are given. The rule has the parts of the RRULE. It is valid exactly if the interval is at least one and count and until are not both given. For each of the others the error raised is known.", "quantifier": "all RRULE contents", "why_tests_cant": "All contents, including those no test author thinks of.", "anchors": ["src/calcore/cal.py:CalendarBase._getRecurrenceRule"]}
{"id": "C100", "title": "Exactly what importing a text a second time does", "statement": "If a text with distinct ids, all of whose events have an organizer, has been imported and the calendar can be listed, importing it again succeeds and changes nothing but the lengths of whole-day events that the first import created, which become what the text says. It announces those whose length changes, and those announced the first time whose attendee lines contradict each other or the organizer, or ask last for another role than required participant.", "quantifier": "all reachable states, texts, calendars, periods and criteria", "why_tests_cant": "Two runs over all states and texts.", "anchors": ["src/calcore/cal.py:CalendarBase.import_", "src/calcore/cal.py:EventSpecification.willModify"]}
{"id": "C101", "title": "Exactly which roles an import sets", "statement": "After a successful import of a text with distinct ids, the roles in an event that was shown are those of the attendee lines if the import announces the event as modified, and unchanged if not.", "quantifier": "all reachable states and texts", "why_tests_cant": "All states and texts.", "anchors": ["src/calcore/cal.py:CalendarBase._importExistingEvent", "src/calcore/cal.py:EventSpecification.willModify"]}
{"id": "C102", "title": "Exactly which events a change in place shows in", "statement": "A change in place of a category set or rule shows in exactly the events that refer to the object changed. Two events come to refer to one object only by creating from, setting or assigning something that refers to it; importing never makes two events share. As long as nothing is changed in place, every call gives an event the categories and rule it asks for and leaves the others alone.", "quantifier": "all sequences of making, specifying, creating, assigning, importing and changing in place", "why_tests_cant": "Sharing depends on the whole history.", "anchors": ["src/calcore/cal.py:EventSpecification.setOnObject", "src/calcore/cal.py:CalendarBase._importExistingEvent"]}
{"id": "C103", "title": "Adjoining periods add up", "statement": "When a period is divided at a point m, the occurrences (and the events) of the whole are those of the two parts, except that items without length exactly at m are in neither part. Exactly the items under way at m (begun before, ending after) are in both. Blocked time adds up as well: a time in the whole period is blocked iff it is in the answer for the part it lies in.", "quantifier": "all storages, criteria, periods and points", "why_tests_cant": "All storages, rules, periods and division points.", "anchors": ["src/calcore/cal.py:StorageBase.getEvents", "src/calcore/cal.py:StorageBase.getOccurrences", "src/calcore/cal.py:StorageManagerBase.getBlockedPeriods"]}
{"id": "C104", "title": "Criteria only select", "statement": "A query with search criteria returns exactly those events (occurrences, pieces within days) of the same query without criteria that meet the criteria, as often and in the same order. It is answered whenever the query without criteria is, unless None is named as an attendee or organizer.", "quantifier": "all storages, periods and criteria", "why_tests_cant": "All storages and combinations of criteria.", "anchors": ["src/calcore/cal.py:StorageBase.getEvents", "src/calcore/cal.py:StorageBase.getOccurrences", "src/calcore/cal.py:SearchCriteria"]}
{"id": "C105", "title": "The order of the components does not matter", "statement": "For a text with distinct ids and the same components in any other order, both imports succeed or both fail; if they succeed, the storage holds the same events under the same ids afterwards and the same notifications were sent, up to order.", "quantifier": "all reachable states, texts with distinct ids, permutations, periods, criteria and synchronize", "why_tests_cant": "All permutations of texts of any size.", "anchors": ["src/calcore/cal.py:CalendarBase.import_"]}
{"id": "C106", "title": "Importing in portions", "statement": "Without synchronizing, importing a text in two portions that share no id, one after the other, has the same state, notifications and outcome as importing it at once, provided that the first portion imports and the calendar can be queried afterwards.", "quantifier": "all reachable states, texts, periods and criteria", "why_tests_cant": "All texts and states.", "anchors": ["src/calcore/cal.py:CalendarBase.import_"]}
{"id": "C107", "title": "Recent years", "statement": "getRecentYears returns exactly the years at most one away from the current one, in ascending order.", "quantifier": "all years", "why_tests_cant": "All years; the result depends on the clock.", "anchors": ["src/calcore/cal.py:CalendarBase.getRecentYears"]}
{"id": "C108", "title": "Occurrences need a bounded period", "statement": "Asking a storage, attendee or calendar for occurrences, segmented or not, in a period without start or without end raises AssertionError, whatever is stored and whatever the criteria; events can be asked for in any period.", "quantifier": "all storages, criteria and unbounded periods", "why_tests_cant": "All storages and periods.", "anchors": ["src/calcore/cal.py:assertPeriodBounded", "src/calcore/cal.py:StorageBase.getOccurrences"]}
{"id": "C109", "title": "Sound histories give exact answers", "statement": "Whatever calls are made, if every specification and every imported component has a start and a non-negative length that stay within the representable calendar and a rule, if any, that is valid, ends at a date if at all, is not yearly on 29 February and cannot leave the calendar before a horizon H, then afterwards, for periods up to H: getEvents, getOccurrences, getOccurrencesInDay, getBlockedPeriods and, for whole days, getFreePeriods return without exception; they return exactly the stored events, occurrences, pieces, busy or free times asked for; events and occurrences each once.", "quantifier": "all histories of sound calls, horizons, periods, criteria and calendars", "why_tests_cant": "Unbounded histories, periods and rules.", "anchors": ["src/calcore/cal.py:StorageBase.getOccurrences", "src/calcore/cal.py:CalendarBase.getOccurrencesInDay", "src/calcore/cal.py:StorageBase.getBlockedPeriods", "src/calcore/cal.py:StorageBase.getFreePeriods", "src/calcore/cal.py:CalendarBase.import_", "src/calcore/cal.py:EventBase.alldayAdjust"]}
{"id": "C110", "title": "Subscribers that only listen", "statement": "setParticipationStatus, setParticipationRole and invite have the same effect, notifications and outcome whether or not subscribers that only listen are registered.", "quantifier": "all events, calls and lists of such subscribers", "why_tests_cant": "All lists of subscribers.", "anchors": ["src/calcore/cal.py:EventBase.invite", "src/calcore/cal.py:EventBase.setParticipationStatus"]}
{"id": "C111", "title": "Subscribers that settle a status", "statement": "With subscribers that on hearing of a participation change set a settled status for that attendee (as the room of the tests does), setParticipationStatus and invite return; the attendee ends with the settled status, newly invited ones as required participants, others are untouched; exactly the changes made are announced. Such subscribers cannot be got round: an attendee removed with status None comes back with the settled status but without a role, after which asking for attendees by role raises KeyError.", "quantifier": "all events, attendees, settled statuses and lists of such subscribers", "why_tests_cant": "The calls nest; all events, lists of invited and subscribers.", "anchors": ["src/calcore/cal.py:EventBase.invite", "src/calcore/cal.py:EventBase.setParticipationStatus", "src/calcore/tests/test_cal.py:_invite_subscriber"]}
{"id": "C112", "title": "Participation notifications are an exact account", "statement": "Whatever subscribers do when notified, the notifications about each attendee during a call lead, change by change, from their status before the call to their status after it, even if the call fails; only if it fails with KeyError one attendee is announced to be there but has neither status nor role. Nothing but participation changes. A subscriber that removes whoever is invited makes invite fail in this way, and the rest of the list is not invited.", "quantifier": "all subscribers, nesting depths, events and calls", "why_tests_cant": "Arbitrary subscribers and unbounded nesting.", "anchors": ["src/calcore/cal.py:EventBase.invite", "src/calcore/cal.py:EventBase.setParticipationStatus"]}
{"id": "C113", "title": "What the first subscriber hears is true", "statement": "The first registered subscriber is only ever told of a status that the attendee has at that moment, whatever the other subscribers do; later ones may be told of a status already replaced.", "quantifier": "all subscribers, nesting depths, events and calls", "why_tests_cant": "Arbitrary subscribers and unbounded nesting.", "anchors": ["src/calcore/cal.py:EventBase.setParticipationStatus"]}
{"id": "C114", "title": "Disagreeing subscribers never come to an end", "statement": "If two subscribers settle different statuses for an attendee, every change of that attendee's status exhausts any depth of recursion.", "quantifier": "all depths, events, statuses and lists of such subscribers", "why_tests_cant": "Non-termination cannot be observed.", "anchors": ["src/calcore/cal.py:EventBase.setParticipationStatus"]}
{"id": "C115", "title": "Subscribers do nothing that plain calls could not do", "statement": "Whatever subscribers do when notified (they may remember things, make any number of calls depending on what they see and how earlier calls came out, catch exceptions, raise), including calls that notify in turn, a call leaves a state that some plain calls made one after the other leave, and announces the same in the same order except for modifications by imports; the plain calls are the call, those the subscribers make, or parts of them. So every state reached with subscribers is reached without, the storage holds exactly the events announced as created and not as deleted since, and if all calls are sound (C109) every query is answered exactly.", "quantifier": "all subscribers with any memory, nesting depths, states, calls and histories", "why_tests_cant": "Arbitrary subscribers, unbounded nesting and histories.", "anchors": ["src/calcore/cal.py:StorageManagerBase.createEventFromSpecification", "src/calcore/cal.py:EventBase.setParticipationStatus", "src/calcore/cal.py:EventBase.invite", "src/calcore/cal.py:CalendarBase.import_"]}
{"id": "C116", "title": "Subscribers that only listen change nothing", "statement": "Every call of the API, imports included, leaves the same state, announces the same and has the same outcome whether or not subscribers that only listen are registered, whatever they remember of it.", "quantifier": "all states, calls and lists of such subscribers", "why_tests_cant": "All calls and states.", "anchors": ["src/calcore/cal.py:StorageManagerBase.createEventFromSpecification", "src/calcore/cal.py:CalendarBase.import_"]}
{"id": "C117", "title": "A subscriber can invite to every new event", "statement": "With a subscriber that on hearing of a new event invites some attendees to it, createEvent returns, the event is stored with all of them taking part, and its creation is announced before the invitations.", "quantifier": "all states, specifications and lists of attendees", "why_tests_cant": "All specifications and lists.", "anchors": ["src/calcore/cal.py:StorageManagerBase.createEventFromSpecification", "src/calcore/cal.py:EventBase.invite"]}
{"id": "C118", "title": "Nothing is lost unless somebody deletes", "statement": "If neither a call nor any subscriber deletes events or synchronizes, every event stored before the call is stored after it. If a subscriber does delete events during an import, the import may fail with KeyError although it succeeds without the subscriber, and what was imported before stays.", "quantifier": "all subscribers with any memory, nesting depths, states and calls", "why_tests_cant": "Arbitrary subscribers and unbounded nesting.", "anchors": ["src/calcore/cal.py:CalendarBase.import_", "src/calcore/cal.py:StorageManagerBase.deleteEvent"]}
{"id": "C119", "title": "removeOverlaps and the list it is given", "statement": "removeOverlaps sorts the caller's list in place: afterwards it holds the same periods in the order of tuples, and is unchanged exactly if it was in that order. A second call on it changes nothing and returns the same. The returned list is a new one, except that for an empty list it is the caller's own, so that appending to the result changes the caller's list exactly in that case. The loop over indexes returns the merged periods of C17 and C18 whatever the sorting method.", "quantifier": "every finite list of pairs and every sorting method", "why_tests_cant": "Arbitrary-length lists; the tests look at the returned value only, for six short lists.", "anchors": ["src/calcore/util.py:removeOverlaps"]}
{"id": "C120", "title": "The iteration order of dictionaries does not matter", "statement": "Python promises no order when a dictionary is iterated. Two states of the system that differ only by the order of the entries of the storage, of the attendee source, of the calendars and of the participation dictionaries behave alike: each call leaves states that again differ only so, sends the same notifications (an import possibly in another order), and returns in one exactly if it returns in the other; queries and exports give the same answers in some order, blocked and free periods the very same lists. The one exception is the main attendee of a calendar of several attendees, which is the first key: an import into such a calendar of a component that names no known organizer depends on the order.", "quantifier": "every reachable state, every reordering of every dictionary before every call, every sequence of calls", "why_tests_cant": "A test runs with the one order the interpreter happens to use; there are exponentially many, and a different one may be used at each call.", "anchors": ["src/calcore/cal.py:StorageBase", "src/calcore/cal.py:CalendarBase.getMainAttendeeId", "src/calcore/cal.py:CalendarBase.import_", "src/calcore/cal.py:Event", "src/calcore/cal.py:SimpleAttendeeSource"]}
{"id": "C121", "title": "An import is silent exactly when there is nothing to do", "statement": "An import returns without sending any notification exactly if the calendar's events can be read, every component of the text has an id that is in the store, every component about an event the calendar shows finds that event as it says (attributes, organizer and everybody listed), and, when synchronizing, every event the calendar shows is in the text; it then leaves the whole system untouched. Hence a text with two components for the same shown event that differ in title, place or status never comes to rest: every import of it fails or sends a notification.", "quantifier": "every reachable system state, calendar, period, search criteria and parsed content, ids repeated or not, synchronizing or not", "why_tests_cant": "An equivalence over all states and all texts; a test sees one text, and that silence implies nothing was missed needs every component and every shown event.", "anchors": ["src/calcore/cal.py:CalendarBase.import_", "src/calcore/cal.py:CalendarBase._importExistingEvent", "src/calcore/cal.py:CalendarBase._importNewEvent", "src/calcore/cal.py:EventSpecification.willModify"]}
{"id": "C122", "title": "Who hears what, and in which order", "statement": "However the subscribers after it act, raise or remember, a subscriber that is registered first and only listens hears exactly the notifications that are sent, in the order in which they are sent (that of the changes they announce). Registered anywhere else it hears the same notifications as long as those before it raise nothing, but not in that order: it can hear of a later change before the earlier one, and the last it hears of somebody's status can be wrong. Its presence changes nothing for the others: state, memory, notifications and outcome of the call are the same without it.", "quantifier": "all subscribers with any memory, positions in the list, nesting depths, reachable states and calls that end within the recursion limit", "why_tests_cant": "Arbitrary subscribers that act in turn, unbounded nesting, all calls.", "anchors": ["src/calcore/cal.py:StorageManagerBase.createEventFromSpecification", "src/calcore/cal.py:StorageManagerBase.deleteEvent", "src/calcore/cal.py:EventBase.setParticipationStatus", "src/calcore/cal.py:CalendarBase._importExistingEvent"]}
{"id": "C123", "title": "The first subscriber hears the truth", "statement": "At the moment the first subscriber is told that an event was created, the event is in the store under the id announced; told that it was deleted, no event with that id is; told that somebody's status changed, they have the new status, and it differs from the old one; told that an event was modified, the event is in the store and its times and texts are what one of the imported components with its id says. Later subscribers can be told of the creation of an event that an earlier one has deleted meanwhile.", "quantifier": "all subscribers with any memory, nesting depths, reachable states and calls that end within the recursion limit", "why_tests_cant": "Arbitrary subscribers and every moment within every call.", "anchors": ["src/calcore/cal.py:StorageManagerBase.createEventFromSpecification", "src/calcore/cal.py:StorageManagerBase.deleteEvent", "src/calcore/cal.py:EventBase.setParticipationStatus", "src/calcore/cal.py:CalendarBase._importExistingEvent"]}
{"id": "C124", "title": "Invitations never override responses", "statement": "If neither a call nor any subscriber sets a status, imports a text or specifies a whole event, then, whatever they invite in reaction to each other, everybody who has a status keeps it, and every participation change that is announced is the invitation of somebody who had no status. If they may also answer with any status but NEEDS-ACTION, nobody who has a status is put back to NEEDS-ACTION, not even an attendee who is listed twice and answers between the two.", "quantifier": "all such subscribers with any memory, nesting depths, states and calls", "why_tests_cant": "Subscribers that invite in reaction to invitations, to any depth; an invitation looks at the status again after every delivery.", "anchors": ["src/calcore/cal.py:EventBase.invite", "src/calcore/cal.py:EventBase.setParticipationStatus"]}
{"id": "C125", "title": "A subscriber that raises", "statement": "If the first subscriber raises, a call that notifies nobody is as usual, and any other ends with that exception at its first notification, without any other subscriber being called; the change announced is made nevertheless. So the caller of createEvent gets no event although it is stored, and somebody whose invitation is objected to has a status but no role: removing them then raises KeyError, although they are gone afterwards.", "quantifier": "all states, calls, exceptions and other subscribers", "why_tests_cant": "All calls, imports included, and all states.", "anchors": ["src/calcore/cal.py:StorageManagerBase.createEventFromSpecification", "src/calcore/cal.py:EventBase.invite", "src/calcore/cal.py:EventBase.setParticipationStatus", "src/calcore/cal.py:CalendarBase.import_"]}
{"id": "C126", "title": "Users working on different events do not notice each other", "statement": "When events are created with a given id and otherwise addressed by their id, what becomes of an event, what is announced about it and how each call on it ends depend only on the calls made on that id, in their order, and not on the calls on other ids made in between. Two interleavings with the same calls on each id end with the same stored events and the same answers to queries, occurrences, blocked and free periods.", "quantifier": "all reachable states, all sequences of createEvent with an id, deleteEvent, invite, setParticipationStatus, setParticipationRole, alldayAdjust, attribute assignment and specification, all interleavings", "why_tests_cant": "The number of interleavings grows exponentially and all share one heap and one dictionary; tests run one order.", "anchors": ["src/calcore/cal.py:StorageBase.createEvent", "src/calcore/cal.py:StorageBase.getEvent", "src/calcore/cal.py:StorageBase.deleteEvent", "src/calcore/cal.py:StorageManagerBase.getEvent", "src/calcore/cal.py:EventBase.invite", "src/calcore/cal.py:EventBase.setParticipationStatus"]}
{"id": "C127", "title": "Rules whose attributes were assigned", "statement": "Rule objects are equal exactly if their values are equal and, for weekly and monthly rules, sequences that were assigned as lists are compared with lists only; what constructors and replace make is equal exactly if the values are. Equal rules hash alike and give the same dates; a rule can be hashed exactly if no compared sequence is a list; whether a sequence is a list never changes the dates; replace without arguments gives a hashable rule with the same values.", "quantifier": "all rule objects of all classes, all assignments to their attributes, all events, end dates and hash functions", "why_tests_cant": "Quantifies over pairs of rules with arbitrary sequences; the constructors convert to tuples, so tests built on them never see a list.", "anchors": ["src/calcore/recurrent.py:BasicRecurrenceRule.__eq__", "src/calcore/recurrent.py:BasicRecurrenceRule.__hash__", "src/calcore/recurrent.py:BasicRecurrenceRule._tupleForComparison", "src/calcore/recurrent.py:WeeklyRecurrenceRule._tupleForComparison", "src/calcore/recurrent.py:MonthlyRecurrenceRule._tupleForComparison", "src/calcore/recurrent.py:WeeklyRecurrenceRule.replace"]}
{"id": "C128", "title": "A room that answers its own invitations is never booked twice", "statement": "A subscriber that, when its room is invited (participation change to NEEDS-ACTION), accepts the event if it is a single event and room.getEvents for the event's time and participation status ACCEPTED gives nothing, and declines otherwise, accepts exactly if no event the room has accepted overlaps. As long as nobody accepts for the room while it is not free, and events it has accepted are only answered, invited to or deleted, no two occurrences the room has accepted ever overlap, whatever is created, invited, moved or deleted and whatever other subscribers do in reaction. An invitation of the room is answered by the time the call returns, with both changes announced.", "quantifier": "all rooms, states, sequences of calls, lists of subscribers and their programs, nesting depths, periods", "why_tests_cant": "An invariant over all histories of calls with re-entrant subscribers; it relies on getEvents being exact, on notifications coming after the change and on setParticipationStatus acting at once.", "anchors": ["doc/usecase.txt", "src/calcore/cal.py:EventBase.invite", "src/calcore/cal.py:EventBase.setParticipationStatus", "src/calcore/cal.py:AttendeeBase.getEvents", "src/calcore/cal.py:AttendeeBase.getOccurrences", "src/calcore/cal.py:SearchCriteria", "src/calcore/cal.py:inPeriod"]}
{"id": "C129", "title": "The calendar repeats every 400 years", "statement": "Moving an event together with its rule's until date and exceptions by whole days (no, basic or daily rule), whole weeks (weekly rule) or whole cycles of 400 years (monthly and yearly rules), in either direction, moves every date the rule gives, and every occurrence of the event in the correspondingly moved period, by exactly that much, the order included. So all queries on a calendar moved by 400 years, or by any number of days that every rule in it allows (getEvents, getOccurrences and getOccurrencesSegmented with any criteria, blocked and free periods of any attendees), answer as before, moved by as much. An expansion that stays clear of the calendar's end finishes in both places. Shorter moves do not have this property.", "quantifier": "all rules, events, calendars, periods, criteria, end dates and numbers of turns", "why_tests_cant": "It relates two runs of the loops on unboundedly many dates; a calendar computation can be right for all dates near today and wrong around a century.", "anchors": ["src/calcore/recurrent.py:BasicRecurrenceRule.apply", "src/calcore/recurrent.py:YearlyRecurrenceRule", "src/calcore/recurrent.py:WeeklyRecurrenceRule.apply", "src/calcore/recurrent.py:MonthlyRecurrenceRule.apply", "src/calcore/cal.py:EventBase.expand", "src/calcore/cal.py:StorageBase.getOccurrences", "src/calcore/cal.py:StorageBase.getEvents", "src/calcore/cal.py:StorageManagerBase.getBlockedPeriods", "src/calcore/cal.py:StorageManagerBase.getFreePeriods", "src/calcore/cal.py:segmentOccurrences"]}
{"id": "C130", "title": "A series can be cut in two at any of its dates", "statement": "Take any date d a rule gives for an event. The dates of the rule until the day before d (without count), followed by the dates of the same rule for an event starting on d (with the count reduced by the repetitions before d, excepted ones included), are exactly the dates of the rule, provided d plays the part of the start: for weekly rules the start's weekday is among the rule's weekdays or is d's weekday; for monthly rules by weekday d is at the same position in its month as the start. Likewise two events with these rules, the second starting on d at the same time of day, occur in any period at exactly the times of the original event. Without this proviso the second half can differ.", "quantifier": "all rules, events, dates of the series and end dates", "why_tests_cant": "Relates three runs over series of any length for every cutting point; whether count, exceptions and intervals are carried over right shows only at particular phases.", "anchors": ["src/calcore/recurrent.py:BasicRecurrenceRule.apply", "src/calcore/recurrent.py:BasicRecurrenceRule.replace", "src/calcore/recurrent.py:WeeklyRecurrenceRule.apply", "src/calcore/recurrent.py:MonthlyRecurrenceRule.apply", "src/calcore/recurrent.py:YearlyRecurrenceRule", "src/calcore/cal.py:EventBase.expand"]}
{"id": "C131", "title": "Different rules for the same days give the same dates", "statement": "With the same count, until and exceptions: every n weeks on the start's weekday gives the dates of every 7n days; every week on all weekdays those of every day; every 12n months on the day of the month those of every n years whenever the latter does not raise; and the weekdays of a weekly rule are a set to which the start's weekday belongs anyway, so that order, repetitions and naming that weekday do not matter.", "quantifier": "all intervals, counts, until dates, exceptions, weekday lists, events and end dates", "why_tests_cant": "Equates the results of different loops on unboundedly many dates and phases.", "anchors": ["src/calcore/recurrent.py:BasicRecurrenceRule.apply", "src/calcore/recurrent.py:BasicRecurrenceRule.replace", "src/calcore/recurrent.py:WeeklyRecurrenceRule.apply", "src/calcore/recurrent.py:MonthlyRecurrenceRule.apply", "src/calcore/recurrent.py:YearlyRecurrenceRule"]}
{"id": "C132", "title": "What replacing one argument of a rule does to its dates", "statement": "Adding exceptions with replace removes exactly these dates; setting an earlier until keeps exactly the dates not after it; a count c keeps the first c repetitions, excepted ones counted, without the excepted ones; a multiple of the interval gives, without count, only dates the rule gave before.", "quantifier": "all rules, events, end dates, exceptions, until dates, counts and multiples", "why_tests_cant": "Relates two runs of the loops for arbitrary arguments.", "anchors": ["src/calcore/recurrent.py:BasicRecurrenceRule.apply", "src/calcore/recurrent.py:BasicRecurrenceRule.replace", "src/calcore/recurrent.py:WeeklyRecurrenceRule.apply", "src/calcore/recurrent.py:MonthlyRecurrenceRule.apply", "src/calcore/recurrent.py:YearlyRecurrenceRule"]}
{"id": "C133", "title": "A meeting put into a free period collides with nothing", "statement": "Ask for the free periods of some people in a period and working hours, let one of them create a single event inside one of the answered periods, invite the others, and let these accept. None of the calls raises; exactly these people attend, all accepted; nothing else in the storage changes. At no instant of the meeting does any of them have another event that takes their time, and every instant is in the working hours. Asked again, the free time is what it was less the time of the meeting, for every group that contains one of them, and unchanged for every other group.", "quantifier": "all reachable states, people, meetings, periods, working hours and minimal durations", "why_tests_cant": "Composes the free-time answer with creation, invitation and answers, over arbitrary stored events (recurring ones included) and all instants.", "anchors": ["src/calcore/cal.py:StorageManagerBase.getFreePeriods", "src/calcore/cal.py:AttendeeBase.createEvent", "src/calcore/cal.py:EventBase.invite", "src/calcore/cal.py:EventBase.setParticipationStatus", "doc/meeting.txt"]}
{"id": "C134", "title": "What a change of one event does to the free time", "statement": "Deleting a stored event leaves free exactly the working time that no other event takes. A participation status, or the removal of a participant, counts for that person and for nobody else; declined and delegated leave the time free. An invitation takes the time of those not asked before, and does not take back the time of those who declined. After its attributes were assigned, an event takes the time of its new occurrences and no longer that of its old ones, for the same participants.", "quantifier": "all reachable states, stored events, people, answers, new times, periods and working hours, all instants of the period", "why_tests_cant": "Relates the free-time answer after a call to the state before it, over arbitrary other events and instants.", "anchors": ["src/calcore/cal.py:StorageManagerBase.getFreePeriods", "src/calcore/cal.py:StorageManagerBase.deleteEvent", "src/calcore/cal.py:EventBase.setParticipationStatus", "src/calcore/cal.py:EventBase.invite"]}
{"id": "C135", "title": "Working hours that pass midnight", "statement": "When the working hours end at an earlier time of day than they begin (22:00 to 6:00, or 22:00 to midnight), getBlockedPeriods answers one block of all the days touched, whatever is stored, and getFreePeriods offers no instant: its answer is empty, or a single period that ends before it starts, which any minimal duration removes. Asked once for the evening and once for the morning, the two answers together are exactly the wanted hours nobody's events take, less the last microsecond of each day.", "quantifier": "every storage content, attendee list, period, and time window whose end is before its begin", "why_tests_cant": "Speaks of every window and every content of the storage, and of all instants of the period.", "anchors": ["src/calcore/cal.py:StorageManagerBase.getBlockedPeriods", "src/calcore/cal.py:StorageManagerBase.getFreePeriods"]}
{"id": "C136", "title": "A copy kept by listening is up to date", "statement": "A subscriber that, told anything about an event, looks its id up in the store and remembers the event as it then is (or that there is none) has, after any calls that create, delete, invite, answer and import, exactly the stored events, equal in everything but the participants' roles. This holds also when further subscribers, registered after it, make such calls themselves in reaction. An invitation is announced before the role is given, so the copy has the roles from before it until something else about the event is announced. Calls that are announced to nobody (setting a role, adjusting, assigning, applying a specification) and removals and imports that raise midway are excepted.", "quantifier": "all histories of such calls, all later subscribers, all ids", "why_tests_cant": "An invariant over arbitrary histories, relating what is announced, and when, to what is stored.", "anchors": ["src/calcore/events.py:EventParticipationChangeEvent", "src/calcore/cal.py:EventBase.invite", "src/calcore/cal.py:EventBase.setParticipationStatus", "src/calcore/cal.py:StorageManagerBase.createEventFromSpecification", "src/calcore/cal.py:CalendarBase.import_"]}
{"id": "C137", "title": "Times given in other time zones", "statement": "Importing an event whose times are given with a time zone stores it at the local time of the same moment. How a moment is written does not matter: the same moments written in other zones give the same result in every respect. Events keep their order, their overlaps and their length, and never end before they start. Times without a zone are not affected by the local one.", "quantifier": "every text, every set of zones, every local zone including ones that change their clocks", "why_tests_cant": "All pairs of zones and all moments, including those at which local clocks are changed.", "anchors": ["src/calcore/cal.py:float_datetime", "src/calcore/cal.py:CalendarBase._getDtstartDuration", "src/calcore/cal.py:CalendarBase.import_"]}
{"id": "C138", "title": "A repeating meeting put into free time", "statement": "When a repeating meeting is arranged inside the free periods the calendars answered, none of its occurrences that lie in such a period collides with any commitment of those asked about. An instant of an occurrence is in the answered free time exactly if it is in working hours and, once the meeting is arranged, nobody asked about is somewhere else then. Asking again afterwards gives the earlier free time less all occurrences of the meeting, if one of those asked about attends it.", "quantifier": "all calendars, all repeating rules, lengths and people, any minimal length asked for", "why_tests_cant": "Any number of occurrences against any number of other events, each repeating itself.", "anchors": ["src/calcore/cal.py:StorageManagerBase.getFreePeriods", "src/calcore/cal.py:StorageManagerBase.getOccurrences", "src/calcore/cal.py:EventBase.expand", "src/calcore/cal.py:AttendeeBase.createEvent"]}
{"id": "C139", "title": "The events a person still has to answer", "statement": "Asking an attendee for the events with a given participation status gives, once each, exactly the stored events of the period in which that person has that status: the lists of the five statuses divide what the person is shown. Answering an invitation moves that one event for that one person to the list of the answer, inviting adds the event to the NEEDS-ACTION list of exactly those guests who had no status yet, deleting removes it from all lists; no other list of anybody changes.", "quantifier": "all reachable calendars, persons, statuses, periods and calls", "why_tests_cant": "Relates a query to every history of invitations and answers; that nothing else changes is a statement about all other persons, events and periods.", "anchors": ["doc/usecase.txt", "src/calcore/cal.py:AttendeeBase.getEvents", "src/calcore/cal.py:SearchCriteria", "src/calcore/cal.py:EventBase.setParticipationStatus", "src/calcore/cal.py:EventBase.invite"]}
{"id": "C140", "title": "Editing an exported calendar and bringing it back", "statement": "A calendar is exported, the text edited and imported with synchronization. Events whose components were left alone stay exactly as they are and nothing is announced about them; an edited event has what its text says now, keeps everything whose line was not edited and all its participants, and is announced as modified exactly if it differs; events whose components were taken out are deleted and announced as deleted; events the calendar does not show are not touched, and what is new was added to the text. (For events that lose nothing by being exported, and edits that add no people.) Taking components out always imports, and deletes exactly the events taken out.", "quantifier": "all calendars, edits, orders of components, periods and criteria", "why_tests_cant": "Arbitrary edits of arbitrarily many components, and a statement about everything that must not change.", "anchors": ["src/calcore/cal.py:CalendarBase.import_", "src/calcore/cal.py:CalendarBase.export", "src/calcore/cal.py:EventBase.export", "src/calcore/cal.py:EventSpecification.willModify"]}
{"id": "C141", "title": "Everything an event shows was given to it", "statement": "In any execution, the title, description, location, status, transparency, access, document, categories, recurrence, all-day flag and times that an event object shows all come from one and the same call: its creation, a specification set on it or assigned to it, or an imported component with its unique id. No such specification was given to it later. Its times are those of that call, or those made into whole days (starting on the same day, the fewest whole days that cover the length) if it was created as an all-day event or was adjusted to whole days since. Its organizer was likewise given by the creation, by the last specification set on it, or by an imported component: the attendee named there if known, otherwise one of the attendees of the calendar. Inviting, answering, sharing, deleting or moving other events never changes any of this.", "quantifier": "all sequences of calls, event objects, specifications and imported texts", "why_tests_cant": "It speaks about every call that could ever change a value, in every order; a test only sees the calls it makes.", "anchors": ["src/calcore/cal.py:EventSpecification.setOnObject", "src/calcore/cal.py:StorageManagerBase.createEvent", "src/calcore/cal.py:EventBase.alldayAdjust", "src/calcore/cal.py:CalendarBase.import_", "src/calcore/cal.py:AttendeeBase.createEvent"]}
{"id": "C142", "title": "A part of an answer", "statement": "If the occurrences of a period are answered, so are those of every period that ends no later, whatever rules the events have; for rules that go forward in time the answer for a part of the period is the part of the answer that overlaps it, in the same order, and the same holds for events. If the segmented occurrences, the blocked or the free periods of a period are answered, so are those of every part and every day of it, and the blocked periods of the part block the same instants.", "quantifier": "all stores, rules (also those a constructor would reject), criteria, attendees, working hours, periods and parts of them", "why_tests_cant": "Two queries over arbitrary stores are compared for every pair of nested periods; raising or looping on one of them only shows for particular rules and ends.", "anchors": ["src/calcore/cal.py:StorageBase.getOccurrences", "src/calcore/cal.py:StorageBase.getEvents", "src/calcore/cal.py:EventBase.expand", "src/calcore/cal.py:StorageManagerBase.getBlockedPeriods", "src/calcore/cal.py:StorageManagerBase.getFreePeriods", "src/calcore/cal.py:CalendarBase.getOccurrencesInDay", "src/calcore/recurrent.py:BasicRecurrenceRule.apply"]}
{"id": "C143", "title": "When a query raises, and what", "statement": "With criteria that name people, getEvents raises exactly if the period has a begin and some event that satisfies the criteria has no end: TypeError if it has no duration, OverflowError if it would end beyond the calendar; the first such event decides. getOccurrences raises exactly what the first matching event raises whose rule raises or one of whose dates up to the end of the period has no end. Segmented occurrences raise OverflowError besides exactly if one of the occurrences shown reaches the last day of the calendar; blocked and free periods raise what the first attendee's segments raise, or OverflowError if the period reaches into that day. Criteria raise AttributeError exactly if somebody without an id is reached in them.", "quantifier": "all stores, rules, criteria, periods, attendees and working hours", "why_tests_cant": "An equivalence over all stores: that nothing else ever makes a query raise cannot be tested.", "anchors": ["src/calcore/cal.py:inPeriod", "src/calcore/cal.py:SearchCriteria._match", "src/calcore/cal.py:StorageBase.getEvents", "src/calcore/cal.py:StorageBase.getOccurrences", "src/calcore/cal.py:EventBase.expand", "src/calcore/cal.py:segmentOccurrences", "src/calcore/cal.py:StorageManagerBase.getBlockedPeriods"]}
{"id": "C144", "title": "One round trip is enough", "statement": "If a calendar's export is imported back into it, the next export says nothing the first did not, and importing that one changes nothing and announces nothing, synchronizing or not; exported whole, it says exactly the same. An event that came to another store by such a text is exported there with the same text as at home, unless it is an all-day event of no length.", "quantifier": "all reachable stores, calendars with a main attendee, periods, criteria that name people, events and receiving stores", "why_tests_cant": "Import and export are composed twice over arbitrary stores; that nothing keeps changing on later round trips is a fixed point over all events, rules and periods.", "anchors": ["src/calcore/cal.py:CalendarBase.export", "src/calcore/cal.py:CalendarBase.import_", "src/calcore/cal.py:EventBase.export", "src/calcore/cal.py:CalendarBase._importEventSpecification"]}
{"id": "C145", "title": "Looking for a time for a meeting", "statement": "A meeting of a given length fits into one of the periods answered by getFreePeriods (asked without a minimal duration, or with one that is not longer) exactly if it is inside the asked period and the working hours, nobody asked for is busy meanwhile, and no event without length that takes their time interrupts it. The first answered period of which enough lies in the asked period gives the earliest such time; if there is none, there is no such time at all. With more people or more events the earliest time can only be later.", "quantifier": "all stores, attendees, periods, working hours, lengths and minimal durations", "why_tests_cant": "That no possible time is missed is a statement about every instant of the period and every store; tests compare single answers.", "anchors": ["src/calcore/cal.py:StorageManagerBase.getFreePeriods", "src/calcore/cal.py:StorageManagerBase.getBlockedPeriods"]}
{"id": "C146", "title": "Going back to an old export", "statement": "If a calendar's text from any earlier time, or from any other store, is imported with synchronization, every event it names that is in the calendar is the same object with that text again, its organizer being the calendar's main attendee, who accepted, and the other statuses as they were; every event it names that is not in the store is created again with that text (unless it is an all-day event of no length), the organizer alone attending; every event of the calendar it does not name is deleted and announced; events in the store but not in the calendar are untouched; nothing else is created. Exported whole, the calendar then says exactly what the text said, except for the events that have left the calendar but not the store.", "quantifier": "all reachable exporting stores and periods, all reachable receiving stores, calendars, periods and criteria, without relation between the two stores", "why_tests_cant": "The store may have changed arbitrarily between export and import; the claim is about every pair of reachable stores.", "anchors": ["src/calcore/cal.py:CalendarBase.export", "src/calcore/cal.py:CalendarBase.import_", "src/calcore/cal.py:CalendarBase._importEventSpecification", "src/calcore/cal.py:EventBase.export"]}
{"id": "C147", "title": "When an import raises, what, and what it leaves behind", "statement": "An import of a text with distinct ids raises exactly what listing the calendar raises, or else what parsing raises, or else what the first faulty component raises: KeyError without id, AssertionError without start, OverflowError for a time beyond the calendar, KeyError if nobody known organizes and the calendar's first attendee is unknown to the source, the error of its RRULE (C99), AssertionError for an undocumented role, AttributeError for an unknown attendee or if a comparison with the event of the calendar reaches nobody. The components before it have been imported as if they had been the whole text, without synchronization; nothing is deleted, nothing more is announced, and at most the event the faulty component is about has changed besides.", "quantifier": "all reachable stores, calendars, periods, criteria and parsed texts with distinct ids", "why_tests_cant": "An equivalence over all stores and texts: that nothing else makes an import raise, and that nothing else changes when it does, cannot be tested.", "anchors": ["src/calcore/cal.py:CalendarBase.import_", "src/calcore/cal.py:CalendarBase._importEventSpecification", "src/calcore/cal.py:CalendarBase._getDtstartDuration", "src/calcore/cal.py:CalendarBase._getRecurrenceRule", "src/calcore/cal.py:EventSpecification.setOnObject", "src/calcore/cal.py:EventSpecification.willModify"]}
{"id": "C148", "title": "Very long durations", "statement": "alldayAdjust, creating an all-day event, and roundtimedelta round a duration up to whole days; they raise OverflowError exactly for durations longer than 999999999 days, and then an adjusted event has its start already moved to midnight and everything else unchanged. Nowhere else in the library does the limit of timedelta matter: steps of recurrences and moved times that pass it are beyond the calendar too and raise the same error, and the time between two datetimes never reaches it.", "quantifier": "all durations a timedelta can hold, all events, dates, intervals and datetimes", "why_tests_cant": "It says where the limit matters and where it cannot, for every duration.", "anchors": ["src/calcore/cal.py:EventBase.alldayAdjust", "src/calcore/cal.py:EventBase.__init__", "src/calcore/cal.py:roundtimedelta", "src/calcore/cal.py:Period", "src/calcore/recurrent.py:BasicRecurrenceRule._nextRecurrence"]}
{"id": "C149", "title": "Reading the categories of a component", "statement": "Whatever the icalendar library does with the CATEGORIES of a component, an event made of it is in exactly the categories named, each once: those of the one line, those of several lines, or none. Reading them fails exactly if the library raises something other than KeyError and AttributeError, or if its second way fails after AttributeError; this is noticed after bad times and a bad organizer and before a bad rule. A text that only repeats or reorders the names, or spreads them over lines, changes the same events.", "quantifier": "all behaviours of the library's two methods, all components, calendars and events", "why_tests_cant": "The library's behaviour differs between versions; a test fixes one.", "anchors": ["src/calcore/cal.py:CalendarBase._getCategories", "src/calcore/cal.py:CalendarBase._importEventSpecification", "src/calcore/cal.py:EventBase.inCategory"]}
{"id": "C150", "title": "What an export says, and when it raises", "statement": "Exporting an event writes its id, access class and transparency, its start and end (as days for an all-day event), of its rule the frequency, interval, count and until, and, unless private, its title, status, categories and its description, location and document if they are not empty; nothing else, in particular no participants, no exceptions and no weekdays. It raises exactly if the event has no end: TypeError without a duration, OverflowError if it would end beyond the calendar. Exporting a calendar writes one such component for each event listed, in that order; it raises what listing raises, and otherwise only for a period without a begin, exactly if one of the events listed has no end; the first such event decides.", "quantifier": "all events, stores, calendars, periods and criteria", "why_tests_cant": "An equivalence: that nothing else is written and that nothing else raises, for every event and store.", "anchors": ["src/calcore/cal.py:EventBase.export", "src/calcore/cal.py:CalendarBase.export"]}
{"id": "C151", "title": "Which calls raise, what, and what they leave behind", "statement": "Apart from an import (C147), a call raises exactly in these cases, and always the named exception. Creating an event, or applying a specification to one, raises what the first refused entry of the attendee list calls for: AssertionError for an undocumented role, AttributeError when the attendee does not exist, KeyError when somebody is asked to leave who does not take part. Deleting raises KeyError when nothing is stored under the event's id. Inviting raises AttributeError when one of the people does not exist. Setting a participation status raises AssertionError for an undocumented status, otherwise AttributeError when the attendee does not exist, and KeyError when somebody with a status but no role is removed. Setting a role raises AssertionError for an undocumented role and otherwise AttributeError when the attendee does not exist. Putting a person that does not exist into a calendar raises AttributeError, and so does taking them out; taking out somebody who is not in it raises KeyError. Assigning attributes, adjusting to whole days, and creating attendees or calendars never raise. A call that raised has changed nothing and told nobody, with three exceptions: an invitation has invited everybody before the first person that does not exist, and told of it; a removal that raised KeyError has taken the status away without telling anybody; applying a specification has written all attributes and the entries before the refused one, on that event only.", "quantifier": "every state reachable by any sequence of calls, every call other than an import, all arguments", "why_tests_cant": "There are unboundedly many attendee lists and histories, and what a failed call leaves behind is rarely looked at.", "anchors": ["src/calcore/cal.py:StorageManagerBase.createEvent", "src/calcore/cal.py:StorageManagerBase.deleteEvent", "src/calcore/cal.py:EventSpecification.setOnObject", "src/calcore/cal.py:EventBase.invite", "src/calcore/cal.py:EventBase.setParticipationStatus", "src/calcore/cal.py:EventBase.setParticipationRole", "src/calcore/cal.py:CalendarBase.addAttendee", "src/calcore/cal.py:CalendarBase.removeAttendee"]}
{"id": "C152", "title": "Expanding one event over any period, open or not", "statement": "Event.expand returns, in order, one occurrence for each date the event takes place on up to the end of the period, less those that start at or after the end of the period and those that are over by its start; a start that is left open asks nothing about when an occurrence is over, so an event without length can be expanded then. An event that does not repeat can be expanded over a period without end; one that repeats raises AttributeError. Otherwise it raises exactly if the period has a start and an occurrence has no end (the first such decides: TypeError without a length, OverflowError beyond the calendar), or else what the rule raises. Giving the period a start takes away exactly the occurrences that are over by then.", "quantifier": "all events, all rules, all four kinds of period, all step bounds", "why_tests_cant": "All events, rules and periods; which exception comes first depends on the order of infinitely many possible dates.", "anchors": ["src/calcore/cal.py:EventBase.expand", "src/calcore/cal.py:inPeriod"]}
{"id": "C153", "title": "Rules whose until has a time zone", "statement": "Comparing two rules raises TypeError exactly if they are of one class, agree in interval and count, and the first place where until and exceptions are not equal holds a datetime with a time zone on one side and one without on the other; otherwise it says whether the rules are the same, moments with zones being compared as moments, and the order of the two does not matter. Importing an event that exists (or applying a specification to it) therefore raises TypeError exactly if the two rules cannot be compared, whatever else differs and in whatever order the attributes come out of the dictionary. The event then keeps its rule, organizer and participants and nobody is told, but the attributes that came before the rule in that order have been taken over if willModify had found a difference before it; willModify itself raises exactly if nothing that comes before the rule differs. An import that raises nothing leaves every attribute as imported, and is announced exactly if willModify found a difference; otherwise it changes nothing. Without time zones the order makes no difference.", "quantifier": "all rules, events, specifications, and all orders of the twelve attributes", "why_tests_cant": "The order of a dictionary is not under the test's control and the half-updated event depends on it.", "anchors": ["src/calcore/recurrent.py:BasicRecurrenceRule.__eq__", "src/calcore/recurrent.py:BasicRecurrenceRule._tupleForComparison", "src/calcore/cal.py:EventSpecification.willModify", "src/calcore/cal.py:EventSpecification.setOnObject", "src/calcore/cal.py:CalendarBase._importExistingEvent"]}
{"id": "C154", "title": "Events keep to the form the interfaces declare", "statement": "If every specification and every imported component given so far keeps to the declared form (an offered status and access, a rule with an interval of at least one, not both count and until, offered weekdays and monthly values; for specifications also a length), every event object does at every moment and has a length. An event is in the form exactly if the last call that gave it its values said so: nothing repairs it and nothing spoils it. An event without a length got a specification without one last and was not made into whole days then or since. The constructors of rules accept exactly the arguments of that form.", "quantifier": "for all histories of calls, all event objects, all arguments of the constructors", "why_tests_cant": "the declared fields are never checked at run time, so conformity depends on every sequence of calls and every text", "anchors": ["src/calcore/interfaces.py:IBasicRecurrenceRule", "src/calcore/interfaces.py:IWeeklyRecurrenceRule", "src/calcore/interfaces.py:IMonthlyRecurrenceRule", "src/calcore/interfaces.py:IExtendedCalendarEvent", "src/calcore/cal.py:EventSpecification", "src/calcore/cal.py:EventBase.alldayAdjust", "src/calcore/cal.py:CalendarBase._importEventSpecification"]}
{"id": "C155", "title": "The attendee list of a specification", "statement": "A specification made with a list of attendees means that list as it is when an event is made from it or it is set on an event, with every change made to it in place since, through whichever specification or name. All specifications made without attendees, and all createEvent calls without attendees, share one list: they mean whatever was done to the attendees of any specification made without. Lists given by the caller are apart from each other and from that one. If nobody changes the attendees of a specification made without, it names nobody.", "quantifier": "for all sequences of calls, lists, specifications and changes in place", "why_tests_cant": "the shared default shows only in later, unrelated calls, after changes of another specification", "anchors": ["src/calcore/cal.py:EventSpecification.__init__", "src/calcore/cal.py:EventSpecification.setOnObject", "src/calcore/cal.py:StorageManagerBase.createEvent", "src/calcore/cal.py:AttendeeBase.createEvent"]}
{"id": "C156", "title": "Subscribing by interface", "statement": "A notification provides IEventEvent always, IEventCreatedEvent and IEventDeletedEvent exactly if it announces a creation or a deletion, IEventParticipationChangeEvent exactly if it announces a change of status, and IEventModifiedEvent exactly if it announces a change made by an import or a change of status. A subscriber that is registered first and goes by a list of interfaces hears exactly the notifications that provide one of them, in the order in which they are sent, whatever the other subscribers do. It hears everything exactly if the list has IEventEvent, or creations, modifications and deletions; these three share every notification out without overlap, and the changes of status are among the modifications.", "quantifier": "all lists of interfaces, all notifications, all systems, calls, other subscribers (acting, remembering, raising) and depths", "why_tests_cant": "tests register one subscriber for one interface; that nothing is missed or heard twice for any list of interfaces while other subscribers act needs an induction over the deliveries", "anchors": ["src/calcore/events.py:EventEvent", "src/calcore/events.py:EventParticipationChangeEvent", "src/calcore/interfaces.py:IEventModifiedEvent", "src/calcore/interfaces.py:IEventParticipationChangeEvent", "src/calcore/cal.py:StorageManager.createEventFromSpecification", "src/calcore/cal.py:EventBase.setParticipationStatus"]}
{"id": "C157", "title": "People who answer for themselves do not notice each other", "statement": "In a run of setParticipationStatus, setParticipationRole and invite calls on any events, the status and role each person ends up with on each event, the changes announced about them and how the calls about them end are exactly what the calls about that person on that event give on their own: an unknown status or role is refused, the status they have changes and announces nothing, removing them clears both status and role, and an invitation gives NEEDS-ACTION and REQ-PARTICIPANT to those without a status only. Nothing else of any event, and no other event, attendee or calendar changes, and a call announces nothing about people it is not about. So two runs in which each person's calls on each event are the same, in whatever order the people take turns and however invitations are grouped, end in the same systems up to the order of dictionary keys and announce the same to and about each person.", "quantifier": "all reachable systems, all finite lists of calls on any events, all people, all interleavings", "why_tests_cant": "tests run one fixed order of answers; that no interleaving of any number of people's answers can make a difference to any of them needs an induction over the calls", "anchors": ["src/calcore/cal.py:EventBase.setParticipationStatus", "src/calcore/cal.py:EventBase.setParticipationRole", "src/calcore/cal.py:EventBase.invite", "src/calcore/cal.py:EventBase._setParticipationStatus"]}
{"id": "C158", "title": "Ids are only names", "statement": "Giving the events and the people other ids, one-to-one and leaving the ids the storage makes up alone, changes nothing else: every call of the API on the renamed system with renamed arguments ends in the same way (with the same exception, if any), leaves the renamed system and sends the renamed notifications in the same order, so whatever can happen can happen under other names. Queries of events, occurrences, segments, attendees, calendars and exports give the renamed answers in the same order; statuses, roles, comparisons, willModify and the free and blocked periods are the very same.", "quantifier": "all systems, all calls (imports included), all finite histories, all one-to-one renamings of event ids and attendee ids that keep generated ids and the empty event id", "why_tests_cant": "tests use a handful of ids; that no id is treated specially, shortened, or confused with another needs a simulation between any system and its renaming", "anchors": ["src/calcore/cal.py:StorageBase.createEvent", "src/calcore/cal.py:EventBase.setParticipationStatus", "src/calcore/cal.py:SearchCriteria._match", "src/calcore/cal.py:CalendarBase.import_", "src/calcore/cal.py:CalendarBase.export", "src/calcore/cal.py:StorageManager.getBlockedPeriods"]}
{"id": "C159", "title": "What can be taken back", "statement": "From any state the program can be in, let any sequence of calls be made, successful or not, in which nothing is deleted (neither directly nor by a synchronizing import), nobody new is registered and no event is created under an id in use. Then there are further calls of the API, every one of which succeeds, after which all there was is as it was: every event object with its attributes, its organizer and everybody's status and role, what each id leads to, the people known with their names and types, and the members of every calendar; and hence every query of the storage and of the calendars, blocked and free periods and exports are answered as before. The exceptions are necessary: an event object that has left the storage is never again found under any id whatever is called, and somebody registered stays registered.", "quantifier": "for all configurations, all reachable states, all sequences of such calls, all arguments; for the exceptions, all later sequences of calls whatever they are", "why_tests_cant": "The calls that take something back depend on the state and on everything done since; a test undoes one particular change in one particular state, and cannot show that no later sequence of calls brings a deleted object back.", "anchors": ["src/calcore/cal.py:StorageBase.createEvent", "src/calcore/cal.py:StorageBase.deleteEvent", "src/calcore/cal.py:EventBase.setParticipationStatus", "src/calcore/cal.py:EventBase.setParticipationRole", "src/calcore/cal.py:EventSpecification.setOnObject", "src/calcore/cal.py:CalendarBase.import_", "src/calcore/cal.py:SimpleAttendeeSource.createIndividual"]}
{"id": "C160", "title": "Events one has nothing to do with", "statement": "What an attendee or a calendar answers (events, occurrences, days, blocked and free periods, export), the exception included, depends only on the events in which that attendee or a member of the calendar takes part, whatever the other events are and however many there are; what somebody organizes depends only on the events they organize. Others may create, change and delete events that are not the members' without naming a member, and the calendar keeps giving the same answers. An import is the exception: whether a text becomes an event depends on whether somebody else uses its id.", "quantifier": "all lists of events, all sets of people, criteria that name no attendees, periods, working hours; all reachable states and all sequences of calls on other ids", "why_tests_cant": "Compares the answers for every pair of storages that agree on the events of some people, and for every sequence of calls by others.", "anchors": ["src/calcore/cal.py:CalendarBase.getEvents", "src/calcore/cal.py:CalendarBase.getOccurrences", "src/calcore/cal.py:CalendarBase.export", "src/calcore/cal.py:AttendeeBase.getEvents", "src/calcore/cal.py:AttendeeBase.getOrganizedEvents", "src/calcore/cal.py:StorageManagerBase.getBlockedPeriods", "src/calcore/cal.py:StorageManagerBase.getFreePeriods", "src/calcore/cal.py:SearchCriteria"]}
{"id": "C161", "title": "Texts are carried along, never interpreted", "statement": "Titles, descriptions, locations, documents, categories, access classes and statuses other than CANCELED have no meaning to the library. Whatever is put in their place, even if different texts become the same, queries without categories list the same events and occurrences, and blocked and free periods, the order of events and the private export are the same. Replacing them one-to-one (keeping the empty text and the words TENTATIVE, CANCELED and PUBLIC) in a system and in the arguments of a call changes nothing else: every call, imports included, ends in the same way, leaves the system in the other words and sends the very same notifications; searches by category, willModify and exports give the answers in the other words.", "quantifier": "all replacements of texts, all systems, all calls (imports included), all finite histories, all queries", "why_tests_cant": "tests use a handful of texts; that none is treated specially, cut, trimmed or confused with another needs a simulation between any system and the same system in other words", "anchors": ["src/calcore/cal.py:EventSpecification.setOnObject", "src/calcore/cal.py:EventSpecification.willModify", "src/calcore/cal.py:EventBase.export", "src/calcore/cal.py:SearchCriteria._match", "src/calcore/cal.py:CalendarBase._importEventSpecification", "src/calcore/cal.py:StorageManagerBase.getBlockedPeriods"]}
{"id": "C162", "title": "A group's time is its members' time put together", "statement": "Asking a calendar of several people is asking its members one by one. getEvents of a group answers, in the order of the storage, exactly the events that getEvents of one of its members answers, whatever the period and the search criteria; it is answered exactly if every member's is. getOccurrences answers exactly the occurrences of the members, and is answered exactly if every member's is. getBlockedPeriods for a group is exactly the members' blocked periods, put together and merged by removeOverlaps, and is answered exactly if every member's is. An instant lies in a free period of the group exactly if it lies in a free period of every member.", "quantifier": "every storage, every non-empty list of attendees, every period, search criteria, working hours", "why_tests_cant": "The tests ask about fixed groups on a handful of events; that the answer for any group decomposes into its members' answers is a statement about all storages and all groups at once.", "anchors": ["src/calcore/cal.py:StorageManagerBase.getBlockedPeriods", "src/calcore/cal.py:StorageManagerBase.getFreePeriods", "src/calcore/cal.py:CalendarBase.getEvents", "src/calcore/cal.py:CalendarBase.getOccurrences", "src/calcore/cal.py:AttendeeBase.getEvents", "src/calcore/cal.py:SearchCriteria._match", "src/calcore/util.py:removeOverlaps"]}
{"id": "C163", "title": "When time is taken matters, not by what", "statement": "getBlockedPeriods for the same period and working hours answers the same list for two storages and two groups of people exactly if the same instants of the period are taken (outside the working hours, or in a meeting of one of the people) and the same reminders (events of no length) stand on their own, neither within nor next to taken time. getFreePeriods, with any minimal duration, then answers the same list too. So entering an event a second time under another id changes nothing, and a meeting may be entered in two adjoining parts.", "quantifier": "every two storages, groups, every period and working hours; any recurrence rules", "why_tests_cant": "It compares all pairs of storages that take the same time, with any number and kind of events.", "anchors": ["src/calcore/cal.py:StorageManagerBase.getBlockedPeriods", "src/calcore/cal.py:StorageManagerBase.getFreePeriods", "src/calcore/util.py:removeOverlaps"]}
{"id": "C164", "title": "The day of the k-th repetition can be computed directly", "statement": "The k-th repetition (from 0) of a daily rule with interval n is k*n days after the start; of a weekly one with m distinct weekdays (the start's included), it is the ((k+i) mod m)-th of them, Monday first, n*((k+i) div m) weeks after the start's week, i being the number of chosen weekdays before the start's; of a monthly one, the same day, or the same weekday counted from the front or the back, k*n months later; of a yearly one the same day k*n years later. The dates a rule gives are exactly these, for k below the count, not after until, the end date and the last date there is, without the exceptions; without exceptions the k-th date given is the k-th of them; and a rule with a count and no exceptions that finishes without an end date has given exactly that many dates. Days 29 to 31 (monthly by day) and 29 February (yearly) are excluded, since some months or years lack them.", "quantifier": "all valid rules of every repeating kind, all starts, end dates or none, all numbers of steps", "why_tests_cant": "Relates the loops, which go from date to date, to a closed formula for arbitrary k.", "anchors": ["src/calcore/recurrent.py:BasicRecurrenceRule.apply", "src/calcore/recurrent.py:BasicRecurrenceRule._nextRecurrence", "src/calcore/recurrent.py:YearlyRecurrenceRule._nextRecurrence", "src/calcore/recurrent.py:WeeklyRecurrenceRule.apply", "src/calcore/recurrent.py:MonthlyRecurrenceRule._nextRecurrence", "src/calcore/recurrent.py:MonthlyRecurrenceRule._applyWeekday", "src/calcore/recurrent.py:MonthlyRecurrenceRule._applyLastWeekday", "src/calcore/recurrent.py:monthindex"]}
{"id": "C165", "title": "A series is as good as one event for each of its dates", "statement": "Take any of the repeating events of a storage apart: replace them by single events, one for each date the rule gives up to the day the asked period ends, with the same time of day, duration, texts, status, participants and answers, under any ids. Then getOccurrences and getOccurrencesSegmented with any criteria give the same times of the same events in the same order, and getBlockedPeriods and getFreePeriods of any attendees give the very same periods.", "quantifier": "all storages, rules, choices of series to take apart, ids, periods, criteria, attendees and working hours", "why_tests_cant": "Relates two calendars of different sizes, with arbitrarily many dates.", "anchors": ["src/calcore/cal.py:EventBase.expand", "src/calcore/cal.py:StorageBase.getOccurrences", "src/calcore/cal.py:StorageManagerBase.getOccurrencesSegmented", "src/calcore/cal.py:StorageManagerBase.getBlockedPeriods", "src/calcore/cal.py:StorageManagerBase.getFreePeriods", "src/calcore/cal.py:segmentOccurrences", "src/calcore/recurrent.py:BasicRecurrenceRule.apply"]}
{"id": "C166", "title": "Working hours only select", "statement": "The working hours given to getBlockedPeriods and getFreePeriods select times of day and do nothing else. Whether the call answers, and which exception it raises when it does not, is the same for all hours. Two calls that differ only in the hours agree at every instant that lies in both: it is blocked in one answer iff it is blocked in the other, and free periods of one, restricted to the hours of the other, cover the same instants as the other way round. Asking for the morning and for the afternoon gives together the free time of the whole day, nothing twice. In longer hours every meeting that fitted still fits, and the first time at which a meeting of a given length fits is not later.", "quantifier": "all lists of events, attendees, question periods, all pairs of working hours, all lengths; no premises at all for whether a call answers", "why_tests_cant": "Relates the answers to two questions with arbitrary hours over arbitrary recurring events; the hours are used when events are cut, when nights are blocked and when gaps are collected, and any one of the three being wrong shows only for particular hours.", "anchors": ["src/calcore/cal.py:StorageManagerBase.getBlockedPeriods", "src/calcore/cal.py:StorageManagerBase.getFreePeriods"]}
{"id": "C167", "title": "Periods made by Period", "statement": "Period(dtstart, minutes) is the period of that many minutes from dtstart on: a query over it returns the events that take place then. (The code violates this: the second part is a length, not an end. getEvents over it returns nothing if every event asked about is over by then and raises TypeError otherwise, whatever the length; no query over a period with a length or a plain date as a bound ever returns anything, and getBlockedPeriods and getFreePeriods always raise.)", "quantifier": "all lists of events, criteria, attendees, working hours, starts and lengths; all periods whose bounds are datetimes, None, lengths or dates in any combination", "why_tests_cant": "That a period is never usable, whatever is stored and asked, is a statement about all stores and all queries; a test on an empty store passes.", "anchors": ["src/calcore/cal.py:Period", "src/calcore/cal.py:inPeriod", "src/calcore/cal.py:EventBase.expand", "src/calcore/cal.py:StorageBase.getEvents", "src/calcore/cal.py:StorageBase.getOccurrences", "src/calcore/cal.py:StorageManagerBase.getBlockedPeriods"]}
{"id": "C168", "title": "Calls that run at the same time", "statement": "createEvent, deleteEvent and setParticipationStatus may run in several threads at once: in whatever order their actions fall, each call ends as it would alone, announces what it would alone and leaves what it would alone, no created event is lost, an event is deleted once, and each announced change starts from the status before it. (This holds for calls that change different answers, and for events with different ids; if moreover every createEvent is given its id, some order of the calls, one after the other, has the same effect. The code violates it otherwise: two createEvents without an id in the same second can get the same id, both return and announce it, and one event is lost; two changes of one answer can both announce the same earlier status, though the answer left is always that of a call that announced it; of two simultaneous removals one can raise KeyError, though one after the other both return.)", "quantifier": "all reachable states, all lists of calls, all schedules of their actions; all pairs of specifications for the lost event, all statuses for the lost answer", "why_tests_cant": "The number of interleavings grows without bound with the number of calls, and a test cannot choose the one that occurs; that every interleaving keeps the other answers and enters each event needs an invariant of all of them.", "anchors": ["src/calcore/cal.py:StorageManagerBase.createEventFromSpecification", "src/calcore/cal.py:StorageBase.createEvent", "src/calcore/cal.py:StorageManagerBase.deleteEvent", "src/calcore/cal.py:StorageBase.deleteEvent", "src/calcore/cal.py:EventBase.setParticipationStatus", "src/calcore/cal.py:EventBase._setParticipationStatus"]}
{"id": "C169", "title": "Inviting while people answer", "statement": "invite, setParticipationStatus (not for a removal) and setParticipationRole of one event may run in several threads at once: in whatever order their actions fall, each call ends as it would alone, everyone in the list of an invitation that returned has a status, nobody loses their status, a status or role is the one from before, one given by a call for that person, or the invitation's for people who had no status, each announcement is of a call's own change, nobody is announced twice by one invitation, and the status left is one that was announced. Inviting never changes the status or role of someone who already has a status. (The last sentence holds for those who have a status before the calls. The code violates it for someone who answers while being invited: invite looks, the answer is stored and announced, and invite then stores NEEDS-ACTION over it and announces that; one after the other, in either order, the calls keep the answer. Two simultaneous invitations of a person are both announced as a first invitation.)", "quantifier": "all events, all lists of calls, all schedules of their actions; all people without a status and all answers for the answer taken back", "why_tests_cant": "The number of interleavings grows without bound with the number of calls and of people invited, and a test cannot choose the one that occurs; that every interleaving respects earlier answers needs an invariant of all of them.", "anchors": ["src/calcore/cal.py:EventBase.invite", "src/calcore/cal.py:EventBase.setParticipationStatus", "src/calcore/cal.py:EventBase._setParticipationStatus", "src/calcore/cal.py:EventBase.setParticipationRole"]}
{"id": "C170", "title": "Queries while the calendar changes", "statement": "getEvents and getOccurrences may run while other threads change the calendar in any way: the call always ends; if meanwhile nobody changes the events that were stored when it began, in particular if events are only created and deleted, its answer is the one of the state in which it began; otherwise it answers with events stored when it began, in order, each of which met every condition of the criteria and the period at some time during the call, and with every event then stored that met all of them, by the same person, all the time. Its answer is right for at least one moment of the call. (The last sentence is violated by the code: an event can be found that never met the criteria, its person having had the wanted status first and the wanted role later, though it holds event by event for criteria with only attendees and status; an event can be missed that always met them, first by one person and then by another; and two events can be found together that never met them together.)", "quantifier": "all queries, all states, all sequences of states seen by the actions of the call, whatever the others do between them", "why_tests_cant": "The other threads can do anything between any two reads, so the number of runs is unbounded, and a test cannot choose when they do it; the guarantee needs an invariant of the query over all sequences of states.", "anchors": ["src/calcore/cal.py:StorageBase.getEvents", "src/calcore/cal.py:StorageBase.getOccurrences", "src/calcore/cal.py:StorageBase._getMatchingEvents", "src/calcore/cal.py:SearchCriteria._match", "src/calcore/cal.py:inPeriod"]}
{"id": "C171", "title": "Blocked and free periods while the calendar changes", "statement": "getBlockedPeriods and getFreePeriods may run while other threads change the calendar in any way. If nobody touches the stored events, the answers are those of a single thread. Otherwise a commitment that was stored when the call came to its person, and that takes their time while the call deals with them, is always reported: no free period meets it. Whatever is reported as blocked inside the working hours comes from an event that was stored then, in which the person took part, which happened at that time, which was not transparent, was not canceled, and had not been declined or delegated, each at some moment. The blocked periods are in order and apart; the free periods are proper, in order, inside the period and the working hours, and long enough. A free period is right for at least one moment of the call. (The last sentence is violated by the code: a person who is busy at every moment, first with one event and then with another at the same time, can be called free then, and a person who is free at every moment can be called busy, when an event is moved away before they accept it.)", "quantifier": "all lists of attendees, periods, working hours and minimal durations, all states, all sequences of states seen by the reads of the call, whatever the others do between them", "why_tests_cant": "The other threads can do anything between any two of the reads, for any number of people, events and segments; a test shows one schedule, the guarantee speaks of every one.", "anchors": ["src/calcore/cal.py:StorageManagerBase.getBlockedPeriods", "src/calcore/cal.py:StorageManagerBase.getFreePeriods", "src/calcore/cal.py:StorageManagerBase.getOccurrencesSegmented", "src/calcore/cal.py:segmentOccurrences", "src/calcore/util.py:removeOverlaps"]}
{"id": "C172", "title": "Importing while others work on the calendar", "statement": "An import may run while other users make any calls. Its effect is that of its actions, each in the state that the others have left by then: listing the calendar, dealing with one component, deleting one event. Alone it is the import of one user. At every moment the system is one that whole calls could have made. An action never touches an event whose uid was not in the calendar when it was listed, so what the others add meanwhile survives, also when synchronizing; never removes what the text mentions; creates only what the text mentions and nobody has made meanwhile; and announces exactly what it did. When the import returns, every component has been dealt with, and a synchronizing import has deleted everything that was listed and is not in the text. After a bounded number of its own actions it is over. If the others delete nothing, it never fails because an event is missing. All this holds also for each of several imports that run at once. It returns whenever it would return alone, and deletes only events that are in the calendar then. (The last sentence is violated by the code: the ids are looked up again without a check, so if somebody deletes a listed event meanwhile the import raises KeyError and leaves the rest undone, although it would return both before and after that deletion; and an event that somebody else has made meanwhile under the uid of a deleted one is deleted although it is not in the calendar.)", "quantifier": "all reachable states, all texts, periods, criteria, with and without synchronize, all sequences of calls by the others between any two actions of the import", "why_tests_cant": "The others can make any calls between any two of the actions, for texts and calendars of any size; a test shows one schedule, the guarantee speaks of every one.", "anchors": ["src/calcore/cal.py:CalendarBase.import_", "src/calcore/cal.py:CalendarBase._importExistingEvent", "src/calcore/cal.py:CalendarBase._importNewEvent", "src/calcore/cal.py:CalendarBase._deleteEvent"]}
{"id": "C173", "title": "Importing while others work on the same events", "statement": "Other users' calls may also fall between an import's looking an event up and its working on what it found. Alone, the import is that of one user; if nobody falls in between, it is as in C172. At every moment the system is one that whole calls could have made. An action never touches an event whose uid was neither in the calendar when it was listed nor in the text; keeps an event under every uid that the text mentions; never removes a listed event that the text mentions; deletes only when synchronizing, under uids that were listed and are not in the text; announces exactly what it did; and changes, replaces or frees only what it had looked up in its action just before. What it raises is decided by the component and what is stored at each action. When it returns, it has at some action dealt with every component as the event then was (edited the event it had looked up to say what the component says, made one that says it, or left alone one that the calendar did not have), and when synchronizing has at some action freed every listed uid missing from the text. It ends after a bounded number of its own actions. All this holds for each of any number of imports running at once. An event that exists before the import makes its own is left alone; only stored events are modified; only the events looked up are deleted. (The last sentence is violated by the code: an event made by somebody under a uid of the text after the import has looked is lost, both being announced as created; an event deleted after the import has looked it up is changed and announced as modified all the same; and an event made under the uid of a deleted one is deleted in its place, although it never was in the calendar.)", "quantifier": "all reachable states, all texts, periods, criteria, with and without synchronize, all sequences of calls by the others between any two actions of the import", "why_tests_cant": "The others can make any calls between any two of the actions, for texts and calendars of any size; the windows are too short for a test to hit, and the guarantee speaks of every schedule.", "anchors": ["src/calcore/cal.py:CalendarBase.import_", "src/calcore/cal.py:CalendarBase._importExistingEvent", "src/calcore/cal.py:CalendarBase._importNewEvent", "src/calcore/cal.py:CalendarBase._deleteEvent", "src/calcore/cal.py:CalendarBase.hasEvent", "src/calcore/cal.py:CalendarBase.getEvent"]}
{"id": "C174", "title": "Exporting while the calendar changes", "statement": "The export of an event or a calendar may run while other threads change the calendar in any way. If nobody touches the events that were stored when it began, in particular if events are only created and deleted, it says what it would say alone. Otherwise each piece of what it writes about an event (uid, class, transparency, start, end, rule, title, status, description, location, categories, document) was true of that event at some moment of the export, except that a text taken away meanwhile may be written as empty and that the end is a start and a duration of two moments added; a private export still tells nothing but the times; pieces that nobody changes are right. A calendar writes one component for each event that its query finds (as in C170), in order; if the others only make calls, each has the uid of an event stored at the beginning, and no uid is written twice. It raises only if a start and a duration that the event had have no end, or if a rule is taken away. A component is right as a whole for at least one moment of the export. (The last sentence is violated by the code: a meeting moved from 9-10 to 12-13 can be written as 9-13; a title given together with the class PRIVATE can be written under the class PUBLIC; and a rule taken away between the two looks at it makes the export raise AttributeError, though before and after it would return.)", "quantifier": "all events, calendars, periods and criteria, private or not, all states seen by the reads of the export, whatever the others do between them", "why_tests_cant": "The others can do anything between any two of the reads of any number of events; a test shows one schedule and cannot choose when the other thread runs.", "anchors": ["src/calcore/cal.py:EventBase.export", "src/calcore/cal.py:CalendarBase.export", "src/calcore/cal.py:CalendarBase.getEvents", "src/calcore/cal.py:StorageBase.getEvents"]}
{"id": "C175", "title": "Editing one event at the same time", "statement": "Any number of people may set specifications on one event at the same time. Each editor compares and assigns the attributes one by one, in any order, and then sets organizer and participants. An editor alone does what setOnObject does. Whatever the turns: every attribute always has the value that the event had before or one that an editor wants; once an editor is through with an attribute, it has the value that one of the editors wants, so the wanted one if all want the same; if nobody is to be removed, who takes part goes on taking part, and the organizer is the old one or one that an editor wants and always takes part. Then also the status and the role of everybody are the old ones or ones that an editor asks for, and once a call has returned every person that it names has a status and a role, and the event an organizer, that one of the editors asks for. Every editor ends after a bounded number of its own actions, and, if it is to remove nobody, as it would alone. When all have returned, every participant has a role if all had one before, and the event is as one of them wants it. (The last sentence is violated by the code: of two people who move a meeting to 12-14 and to 14-17, both return, and it can end up at 12-15. If one of two removes somebody and the other keeps them, both return, and the person can end up as a participant without a role; if nobody is removed, this cannot happen.)", "quantifier": "all events, any number of specifications, all orders of the attributes in the dictionaries, all sequences of turns", "why_tests_cant": "The turns can be taken in any order by any number of editors; a test shows one schedule and cannot choose when the other thread runs.", "anchors": ["src/calcore/cal.py:EventSpecification.setOnObject", "src/calcore/cal.py:EventBase._setParticipationStatus", "src/calcore/cal.py:EventBase.setParticipationRole"]}
