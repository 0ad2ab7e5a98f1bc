# CalCore in Rocq: design

Source: `/repo/src/calcore` (Python 2). Model and proofs: `/verif/rocq/theories`. Coq 8.16.1, standard library only.

## Approach

A shallow model, function by function, with exceptions as values.

* `res A := Ok a | Raise exn | OutOfFuel` (Base.v). A Python exception is `Raise`. A Python loop without a structural
  bound runs on explicit fuel and reports `OutOfFuel`. Theorems then say "for all sufficiently large fuel the result
  is ..." (termination and result), "whatever fuel gives an answer, it is this one", or "for every fuel `OutOfFuel`"
  (divergence). Running out of fuel never looks like a normal answer.
* Generators return `list * fin` (what was yielded so far, and how it ended), so prefixes of infinite iterations are
  visible.
* `datetime` (PyDate.v): a date is its proleptic ordinal (Z, 1..3652059), a datetime is microseconds
  `ordinal*86400000000 + time of day`, a timedelta is microseconds. `date(y,m,d)`, `replace`, `+`, `weekday`,
  `isocalendar` follow CPython, with ValueError and OverflowError. DateFacts.v ties the ordinals to the civil calendar
  (`ymd2ord` and `ord2ymd` are inverse, month lengths, successive days).
* Dictionaries are association lists. The list order stands for CPython's unspecified iteration order: new
  keys are appended. That the theorems do not depend on this choice is itself a theorem (C120): with every dictionary
  reordered before every call, the states, outcomes and notifications are those of the model up to order, except for
  the main attendee of a calendar of several attendees (`keys()[0]`, cal.py 677-688).
* Event objects live in a heap (list indexed by reference). The storage maps unique ids to references, so stale handles
  and overwritten events are visible.
* A state change is an operation of the API (`op`, `step` in System.v). `history` records, for each operation, the
  notifications and the outcome; `reachable` states are those at the end of a history. A call that raises leaves behind
  whatever it did before it raised.
* An attendee is its id; `None` stands for Python's `None`, on which `getAttendeeId` raises AttributeError.
* `icalendar` (third party, not in the repository) is not modelled at text level. An imported text is what the parser
  would hand over: the list of decoded VEVENT components, nothing, or an exception. An export is the list of property
  values handed to it. `wire` describes printing and parsing back: values survive, times lose fractions of a second.
* The local time zone is a parameter `cf_tz`: an arbitrary function from UTC times to the distance of local time from UTC.

Files: model (definitions only): Base, PyDate, Recurrent, Util, IsoWeek, CalTime, Event, Storage, ICal, System, RuleText,
Repr, World, Alias, Overlaps, React, Deliver, Subscribe, RuleAttr, Limits, Categories, Aware, Defaults, Periods.
Independent specifications: SpecRecur (days of a rule, day by day), SpecText (a reader for RRULE and EXDATE lines written
from RFC 2445); smaller ones stand at the head of the property files. Lemmas: `*Proofs.v`, DateFacts, RecurExact, RecurMain,
RecurOrder, RecurSound, RecurMisc, ImportContent, ImportTwice. Property theorems: `Prop*.v`, each theorem `Cxx_...` with
`Print Assumptions` and an `Example Cxx_case` showing that a concrete case meets the hypotheses.

Naming: `..._partial` proves a part or under extra hypotheses named in its comment, `..._refuted` exhibits a concrete
counterexample to the full statement in the faithful model (i.e. the code violates the property).

## Per property

| id | modelled in | how proved, and what is missing |
|---|---|---|
| C01 daily | Recurrent `apply` | equality with a filter over all days (SpecRecur). Full, with and without end date |
| C02 weekly | same | same; the day after the last one must be representable (before 9999-12-31) |
| C03 monthly by day | same | same |
| C04 n-th weekday | same | full for starts on day 1..28; fifth weekdays spill into the next month (refuted); the actual behaviour is characterised exactly for all starts |
| C05 n-th last weekday | same | mirror image of C04 |
| C06 yearly | same | full except for 29 February, for which the code raises (refuted); exactly when it finishes in C06_finishes_iff |
| C07 order | same, every fuel | induction on fuel |
| C08 end date | same | bounded run = filtered unbounded run; NoRecurrenceRule ignores the end date (refuted) |
| C09 termination | same | every rule a constructor accepts; exact for any rule object, including intervals of zero or below (PropEnd.v, C09_ends_iff), and for queries; INTERVAL=0 from an import runs forever (refuted, also at system level in C54) |
| C10, C11 | constructors, `replace`, tuples | case analysis |
| C12 first date | `apply` | every kind; December 9999 corner refuted |
| C13, C14 | `weekspan`, `monthindex` | ordinal arithmetic, uniqueness proved |
| C15, C16 | IsoWeek | against the "Thursday" definition of ISO weeks |
| C17, C18 | Util | induction on the sorted list; canonical form proved |
| C19 | `in_period` | interval arithmetic |
| C20, C21 | Storage queries | exact membership and multiplicity, any order; C21 also termination |
| C22 | day queries | events of positive length; an instantaneous event at midnight is on no day (refuted); what a day shows is given exactly in `PropExact.v` |
| C23, C24 | segmentation | loop invariant on borders |
| C25 | segmentation | false for an occurrence ending at a midnight strictly inside the period (refuted); proved otherwise; the pieces of any occurrence are given exactly in `PropExact.v` |
| C26, C27, C30 | `getBlockedPeriods` | composition of C17, C21, C23 |
| C28, C57 | `getFreePeriods` | coverage proved; staying within the period and maximality only for the stated shapes (refuted otherwise); the whole result, when the claim holds and where free periods touch are given exactly in `PropFree.v` |
| C29 | minimal duration | exact filter |
| C31 | status test | holds for CANCELED, refuted for CANCELLED (the documented spelling); what one event adds to the blocked time is exact (C31_adds_exact) |
| C32 | `_match` | equivalence with a declarative matching relation; in terms of the arguments given in `PropTight.v` |
| C33, C34, C58 | `clone`, calendars | the criteria's own values win over the arguments (refuted); proved where they do not collide, and for any criteria the exact set of events returned (`wanted`) |
| C35, C59 | `alldayAdjust` | C35 full; C59: a start after midnight can lose time at the end (refuted), exactly when is `C59_allday_covers_iff` |
| C36 - C40 | Event operations and all histories | invariants by induction over histories; refuted parts: role missing after a status without role (C38, C39), status values set through a specification (C40), silent status changes of specifications and imports (C37); `PropChange.v` gives exactly when and how a status change is announced |
| C41 compare | `__cmp__` | refuted: compares its own id with itself |
| C42 store | System | refinement of the storage to a map, for every history |
| C43 ids | `generated_id` | refuted after a deletion within the same second; proved without deletions, or when time moves on (decimal and fixed-width formats are injective); `C43_same_id_iff` says exactly when two ids are equal |
| C44 creator | System | every history; refuted when the specification lists the creator itself; exact in `PropSpec.v` |
| C45, C46 | import | frame and deletion theorems over the import loop, also for imports that fail |
| C47 round trip | export, import | whole-state identity for `exportable` events, refuted otherwise (organizer, exceptions, weekdays, fractions of seconds); `PropRound.v`: when the round trip works, what is left of each event, and that nothing changes iff all are exportable |
| C48 times | import | all combinations; refuted: known event, DATE start, no end |
| C49 willModify | Event | when it says no and when it raises are given exactly (`PropExact.v`); an import changes and reports what it says (`PropTight.v`); three refutations |
| C50 private export | `export_event true` | two-run equality, and content |
| C51 line ends | `repair_text` on strings | idempotent for every text, exact for every text in `PropMore.v` (lines joined by newlines), refuted for mixed ones and for a leading newline |
| C52 rule text | RuleText | an independent reader recovers the rule; refuted: count 0, years before 1900, rule classes without frequency, times in exceptions; exactly when there is a text and what it says in PropEdge.v |
| C53, C71 failed import | import | C53 refuted; C71: what any failing import leaves behind is given exactly (`PropFail.v`) |
| C54 imported rules | `import_rule` | parts preserved, accepted RRULEs, validity conditions and what is raised for the others exact; refutations include a calendar whose queries never return |
| C55 search | RuleText | refuted: all three methods raise; only the empty source works. The loops are exact once the missing method and attribute are supplied (`PropSearch.v`) |
| C56 rounding | `roundtimedelta` | arithmetic |
| C60 delete | System | refuted for stale objects; proved for stored ones; exact for all in `C60_delete_exact` |
| C61 content | import | every successful import with distinct ids; the default organizer from the history (`PropTight.v`) |
| C62 transfer | export, import | events with exportable times and rules, into any store; `PropRound.v`: what arrives of any event |
| C63 participants | import | exact for new events and statuses; a change of role only is ignored for a known event (refuted); `PropRound.v`: the roles are the text's iff the event is announced as modified |
| C64 unknown people | import | refuted for participants (no such import succeeds); proved for organizers |
| C65 totality | import | every reachable state, every well-formed text; exactly when an import succeeds (`PropAccept.v`) |
| C66 twice | import | exact effect of each component, setting a specification is idempotent; refuted for whole-day events without end; `PropAgain.v`: exactly what the second import changes and announces |
| C67 members, C68 known, C69 shown | calendars and attendee source over histories | `member`, `registered` read the history's successful calls; invariant by induction on the history; listing by exactness of the query |
| C70 repeated ids | import | `PropRepeat.v`: last component wins for shown events, first for new ones; by splitting the loop |
| C72 - C79 | exact companions of refuted properties | the `_exact` and `_iff` theorems of `PropExact.v` and `PropQuery.v`: what the code does in every case, including those that refute C22, C25, C33, C34, C38, C39, C43, C49, C58, C59, C60 |
| C80 every expansion | all rule kinds, all outcomes | `PropRaise.v`: for each loop, what it yielded when it stops and when it raises (induction on fuel, days ranked from the start); raising is equivalent to a step to a day that does not exist before anything is cut off |
| C81 attendee lists | `setOnObject`, `EventBase.__init__` | `PropSpec.v`: the entry reached last about a person decides; induction on the list, with the exact outcome. C40_status_origin, same file: induction on the history |
| C82 vocabularies | Repr | equivalences with what the constructors accept |
| C83 printed rules | Repr `rule_repr` | an independent reader for Python expressions reads the text back; induction on expressions |
| C84 frame | all operations | `PropChange.v`: case analysis on the operation; for imports induction on the loop |
| C85 import, in order | import | `PropRound.v`: induction on the loop with the state each component meets; frame for events the text does not name |
| C86 storages apart, C87 managers | World | `PropWorld.v`: invariant over histories of calls on all storages; each storage's view is a reachable state of System.v; the storage a call goes to is read off the history |
| C88 ids of different storages | World | injectivity of the id's text for different storage ids on one host; refuted for two storages of the same id; exactly when two ids coincide (`C88_same_iff`) |
| C89 changes in place | Alias | `PropAlias.v`: references and objects; invariant over histories for careful use; refuted for one specification used twice; without changes in place the value model is exact |
| C90–C102 what the code does instead | as for the refuted claim | the exact theorems of C09, C28, C31, C37, C40, C44, C47, C51, C52, C54, C57, C62, C63, C66 and C89, as claims of their own |
| C103 adjoining periods, C104 criteria | queries | `PropMeta.v`: from the exactness of the queries (C20, C21, C26); `PropSelect.v`: criteria filter the list of results |
| C105 order, C106 portions | import | `PropMeta.v`: each component's effect is a function of the state before (C85), so permuting permutes; the loop over a concatenation, and being shown is unchanged for ids the first portion does not name |
| C107 recent years | `recent_years` | arithmetic |
| C108 bounded periods | queries | case analysis |
| C109 sound histories | the whole system | `PropSound.v`: an invariant of event objects (start, length rounded up to whole days, rule) kept by every call, so the query theorems (C20-C28) apply to every state reached; a concrete history with an import beside it |
| C110 listening | `setParticipationStatus`, `setParticipationRole`, `invite` with deliveries to subscribers (`React.v`) | `PropReact.v`: equal to the plain methods |
| C111 settling | the same | `PropReact.v`: with any number of subscribers that set a settled status, and listeners, two levels of deliveries suffice; `C111_removal` says what goes wrong when such an attendee is removed |
| C112 account | the same, arbitrary subscribers | `PropReact.v`: an invariant kept by sequencing and by every depth of delivery; `C112_refused` reaches the exception |
| C113 order | the same | `PropReact.v`: two first subscribers that agree on true news cannot be told apart; `C113_second` for later ones |
| C114 disagreement | the same | `PropReact.v`: by induction on the depth |
| C115 in turn | the whole system with deliveries to subscribers (`Deliver.v`) | `DeliverProofs.v` (`step_leads`: any relation kept by the single changes and their deliveries is kept by every call) and `PropDeliver.v`: every call with arbitrary subscribers is a sequence of plain calls (`serial`, an instance of that relation, by induction on the depth and on the subscribers' programs); so all theorems about reachable states, histories and sound histories apply |
| C116 listening | the same | `PropDeliver.v`: equal to `step` of System.v, imports included |
| C117 inviting | the same | `PropDeliver.v`: exact state and notifications |
| C118 nothing lost | the same | `PropDeliver.v`: from C115; `C118_import` is a case of an import that fails |
| C119 the caller's list | `removeOverlaps` on a list object, with its loop over indexes (`Overlaps.v`) | `PropOverlaps.v`: induction on the loop; sorted permutations are unique, so any sorting method gives the same |
| C120 iteration order | all of System.v and Storage.v, related to itself up to the order of every dictionary (`ShuffleProofs.v`, `ShuffleSystem.v`) | `PropShuffle.v`: simulation, one lemma per function; induction over histories in which dictionaries are reordered before each call |
| C121 silent imports | import | induction over the components: a silent component leaves the state alone; the deletions of a synchronization announce themselves; `as_said` is the specification of "nothing to do" |
| C122 who hears what | the system with subscribers (`Deliver.v`), one of them writing down what it hears | `PropTold.v`: instances of `step_leads`, by induction on the depth and on the subscribers' programs; `C122_unnoticed` is a simulation between the calls with and without that subscriber |
| C123 the truth | the same | `PropTold.v`: the entries of that subscriber hold in the state at their moment; `C123_later_refuted` for later subscribers |
| C124 responses | the same | `PropObject.v`: instance of `step_leads`, whose parts of an invitation carry that the attendee has no status at that moment |
| C125 objections | the same | `PropObject.v`: `stopped` relates a call to the plain call up to its first notification, kept by sequencing |
| C126 independence | System | `PropIndependent.v`: every id refines a machine of its own (`alone`); then induction over the sequence. Ids that are generated (they count the other events) and imports are left out |
| C127 assigned attributes | RuleAttr | `PropAttr.v`: case analysis over the classes; the equality used elsewhere is that of constructed rules (`C127_constructed`). Rules of equal values need not be equal: `C127_list_differs` |
| C128 a room that answers | Deliver, Storage | `PropRoom.v`: the policy of doc/usecase.txt as a subscriber; invariant over told calls by induction on nesting and history (`C128_never_twice`), exactness of the query (`C128_answers_exactly`), run of one invitation (`C128_invited`). Single events only, since getEvents looks at an event's own time (`C128_recurring`); imports are excluded |
| C129 400 years | Recurrent, Event, Storage | `PropShift.v`: `ord2ymd` moves with 146097 days; the day predicate, the rank and the day-by-day specification move; by exactness of finished expansions the dates do (`C129_rule_moves`), then `expand`, getEvents and getOccurrences. Both runs are assumed to finish; `C129_rule_moves_finishes` says when. `C129_turn_needed`: shorter moves do not work; segments, blocked and free periods by following each loop in both places (PropMove) |
| C130 cutting a series | Recurrent, Event | `PropSeries.v`: the day predicate from a later date of the series is that from the start (`code_on_restart`), the rank adds up; by exactness of finished expansions (`C130_split`), and for events (`C130_occurrences`). `C130_part_needed`: without the proviso it fails |
| C131 rules for the same days | Recurrent | `PropSeries.v`: the day predicates coincide (week and month numbers); exactness. The yearly rule raises on 29 February (`C131_leap_day`) |
| C132 replacing an argument | Recurrent | `PropSeries.v`: filters of the day-by-day specification; counting by induction on the days (`filter_count`) |
| C133 a meeting in free time | Storage, Event, System | `PropMeeting.v`: the calls run symbolically on the new object (`arranged`); exactness of the free-time answer (`get_free_covers`) before and after. The meeting has to be inside the period asked about, because getFreePeriods may answer periods beyond it (C28) |
| C134 changing one event | Storage, Event, System | `PropReschedule.v`: the stored events split into this one and the others (`busy_split`); what the call does to the object; exactness of the free-time answer |
| C135 nightly working hours | Storage | `PropOvernight.v`: the night blocks overlap and merge into one (`blocked_overnight`); two windows, by exactness of the free-time answer |
| C136 a copy of the store | Deliver | `PropMirror.v`: the subscriber as a watcher of Deliver.v; invariant over calls (up to date but for the id being changed, until it is announced), by induction on the nesting for what later subscribers do |
| C137 time zones | ICal, System | `PropZone.v`: zones of the text, local zone an arbitrary function of the moment; equal moments give equal imports, exact start and length, order and overlap where the local clock is not changed in between; refuted for clocks put back (an event that ends before it starts) |
| C138 repeating meeting | System, Recurrent | `PropStanding.v`: sittings of the new event against all other occurrences of the people asked about; composed from the free-period theorems and those on arranging (C134) |
| C139 action items | System, Event | `PropWorklist.v`: the answer of the search is compared with a specification over stored events (`listed`); effect of answering, inviting and deleting on every list of everybody |
| C140 edited exports | ICal, System | `PropEdit.v`: component by component, the texts compared line by line (`only_edits`), from the exact effect of an import (C85) and of an export (C47) |
| C141 values given | System | `PropGiven.v`: over histories (calls with their announcements and results); each event object is traced to the last call that gave it its values; `gives`, `whole_days` and `gives_organizer` are stated on the arguments of the call only |
| C142 parts of answers | Recurrent, CalTime, Storage | `PropNarrow.v`: every loop of a rule either stops earlier or goes the same way when told an earlier end; lists compared by `filter` with an overlap test of their own |
| C143 causes of errors | CalTime, Event, Storage | `PropCause.v`: equivalences for `Raise x` of each query, from the first element of a list on which a step raises; what rules raise is C80 |
| C144 second round trip | Event, ICal, Storage, System | `PropSettle.v`: an event that came through the text loses nothing more the next time; with that the second import is one C47 says changes nothing |
| C145 time for a meeting | Storage (getFreePeriods) | `PropSlot.v`: a possible time is one without busy instants and reminders, on the occurrences of the events; from C28, C29 and C57 the answer has a period around each |
| C146 old export | Event, ICal, Storage, System | `PropRestore.v`: export and import happen in unrelated reachable stores; what each imported event then says is C62 and C47's description of an imported event, exported again |
| C147 failing imports | ICal, Event, System | `PropFault.v`: each stage of reading and applying a component is shown to raise exactly its declared faults (`decides`, from `PropErrors.v`); induction over the text, other components do not influence a component's faults when the ids are distinct |
| C148 very long durations | Limits (the functions that make a timedelta, with its limits), Event, CalTime | `PropLimit.v`: equality with the model without limits up to the longest number of whole days, OverflowError beyond; arithmetic for the places that cannot meet the limit |
| C149 categories | Categories (`_getCategories` given any behaviour of the library), ICal | `PropCategories.v`: case analysis; `decides` for the order of failures |
| C150 export | ICal, System | `PropExport.v`: a field-by-field specification that determines the component, shown equivalent to exporting; induction over the list for the first failure |
| C151 calls that raise | System, Event | `PropRefuse.v`: `call_fails`/`call_left` per call; `decides` lemmas for each mutator; first refused entry from C81 by induction on the length of the list |
| C152 expand, open periods | Event, CalTime | `PropOpen.v`: both branches of expand are one loop over `dates_of`; induction over the dates |
| C153 time zones in until | Aware | `Aware.v` keeps the zone and takes the order of `__dict__` as an argument; `PropAware.v`: case analysis of the tuple comparison, induction over the order |
| C154 declared form | System, Recurrent, ICal, Repr | `PropForm.v`: the fields of interfaces.py as predicates on events, specifications and components; induction over histories with the lemma behind C141 (`step_gives`) |
| C155 attendee lists | Defaults (list objects, the shared default argument), System | `PropDefault.v`: what a list holds is computed from the history alone (`holds`); invariant over executions; each call amounts to a call of System.v |
| C156 by interface | Subscribe, Deliver | the class and interface hierarchies are data, what is heard is a relation between lists (PropIface); induction over deliveries with other subscribers of any kind that do not catch running out of depth |
| C157 answering for oneself | Event, System | one person on one event is a pair of options with its own small step function (by_oneself, PropPersonal); induction over the calls, then C120's likeness of systems for two interleavings |
| C158 names | Event, Storage, ICal, System | a renaming acts on every type (PropRename, written with named fields); every function of the model commutes with it, the loops by induction |
| C159 taking back | System | two states are compared object by object and key by key (`regained`, PropUndo), the calls are listed (`revocable`); the undoing calls of one call work at any later state that has regained the one after it, composed by induction over the calls; imports through `import_frame`, answers through C120 on the state cut down to the old objects; what cannot be taken back by an invariant over all later calls |
| C160 unseen events | Storage, System | `concerns`, `foreign`, `same_to`, `named` specify who has to do with an event, when two states are the same to some people, and whom a call names; the answers factor through the filter of the storage by `concerns` (C160_answers), `C160_states` carries this to reachable states (order of the storage aside), and C126's calls by id are shown to keep foreign events foreign (C160_others); C160_import_tells is the exception |
| C161 texts | Event, Storage, ICal, System | `wording` maps every text attribute; `wd_event`, `wd_spec`, `wd_vevent`, `wd_crit`, `wd_sys`, `wd_op` are the same things in other words; each function of the model commutes with them (as in C158, whose lemmas on results and lists are reused), hence C161_call and C161_history by induction; C161_times needs no injectivity |
| C162 groups | Storage, Util, CalTime | merged lists of periods are determined by the instants and ends they reach (periods doubled so that periods of no length count); induction over the members; the matching loop is the disjunction of its runs on single attendees |
| C163 taken time | Storage, Util, CalTime | the half units reached by the merged list are characterised by nights, busy instants and reminders; sorted lists with gaps are determined by what they reach (C162) |
| C164 the k-th date | Recurrent | a formula enumerates the designated days in order, so the number of days before the k-th is k; with no end date the loops run as with the last day of year 9999 |
| C165 a series taken apart | Event, Storage, CalTime | induction along the calendar; expand goes through the dates as getOccurrences goes through the single events |
| C166 working hours only select | Storage, BlockProofs, PropHours | both exact descriptions of the answer (`get_blocked_exact`, `get_free_covers`) say `outside hours or busy`, with `busy` independent of the hours; the first fit through C145; the failing cases by going through the computation for both hours at once (`alike`) |
| C167 periods made by Period | Periods, PropPeriod | Periods.v repeats the queries with bounds of any kind and is shown equal to the model where they are datetimes or None; **refuted**: the second part is a length, so queries raise TypeError or find nothing |
| C168 calls at the same time | Threads, PropThreads, PropSerial | Threads.v splits createEvent, deleteEvent and setParticipationStatus into their accesses to the shared dictionaries; alone a thread is the step of System.v; invariants over any schedule: where each thread is and what it has left (phase, cphase, aphase) and an order of the entries and deletions that explains the dictionary (replay); the calls one after the other, creations and deletions in the order of their effect and then the answers, are simulated (linv, answers_run); **refuted** for equal made ids and for two changes of the same answer |
| C169 inviting while people answer | Invites, PropInvites | Invites.v splits invite, setParticipationStatus and setParticipationRole into their accesses to the two dictionaries of one event; alone a thread is `invite`, `set_status` or `set_role` of Event.v; one invariant over any schedule says where each thread is and what it has announced (fits), that each status is an earlier one or announced or about to be, and that a status without a role belongs to an invitation about to give it |
| C170 queries while the calendar changes | Reads, PropReads | Reads.v splits getEvents and getOccurrences into their reads of the shared objects; a run is the list of the states the reads see, with nothing assumed about how one becomes the next; a measure for the end, a simulation of get_events and get_occurrences of Storage.v when the stored events stay as they are, and two invariants (sound, kept) otherwise |
| C171 blocked and free periods while the calendar changes | BusyRun, BlockForm, PropBusyRun | BusyRun.v runs, for each attendee, the query of Reads.v and then the three reads per segment, each in a state of its own; the invariants of C170 give what the query must and can contain, segmentation and clipping carry it to the blocked list; BlockForm.v restates the analysis of the blocked list and its gaps for any clipped segments; a simulation of get_blocked and get_free when the events stay as they are |
| C172 importing while others work on the calendar | ImportRun, PropImportRun | ImportRun.v splits import_ into listing, one action per component, one per deletion; between them any calls of System.v; alone the actions add up to import_cal (induction over both loops); one invariant says where the import is (place), one what it has done, with the moment (worked), one what is still stored if nobody deletes (still_there); a measure for the end; each action is a call that a user could make, so every state is reachable, and of several imports at once each sees the others as callers |
| C173 importing while others work on the same events | FineImport, PropFineImport | FineImport.v splits each component and each deletion of ImportRun.v into looking up and working on what was found; one invariant says where the import is and what it looked up last, with nothing but calls of others since (fplace, latest); ids of events never change, so what is edited or dropped belongs to a listed uid; simulation of every run of C172; a record of the actions that dealt with the components and the deletions so far (fworked), what an edit leaves following from the outcome of one component (`import_one_outcome`) on a system cut down to that event; a measure for the end; several imports at once by turning the actions of the others into calls |
| C174 exporting while the calendar changes | ExportRun, PropExportRun | ExportRun.v gives every read of an attribute the state it sees, and uses the query of Reads.v; each piece is traced to its read and compared with the specification of C150; C170 says which events are found and what happens when nobody touches them; uids never change along calls, so none is written twice |
| C175 editing one event at the same time | Editors, PropEditors | Editors.v splits setOnObject into comparing and assigning each attribute and the calls about people; an invariant over the turns says whose value each attribute has; another says the same of status, role and organizer if nobody is removed; the calls that follow are a list whose outcome does not depend on the event unless somebody is removed, and setOnObject is shown to be that list; a measure for the end |
| C14, C52, C54 errors | Recurrent, RuleText, ICal | `PropErrors.v`, `PropEdge.v`: for every rule object, RRULE or weekday, exactly what is raised |

## Disagreements found between code and properties

Each has a `_refuted` theorem: C04/C05 fifth weekday; C06 leap day; C09/C54 interval zero; C12 December 9999; C22
instant at midnight; C25 empty segment; C28/C57 free periods outside the period or split; C31 spelling; C33/C34/C58 clone
precedence; C37 silent changes; C38 KeyError on removal; C39 KeyError on listing by role; C40 undocumented status;
C41 comparison; C43 id reuse; C44 creator overridden; C47 round trip; C48 missing end; C49 willModify; C51 mixed line
ends; C52 count zero, old dates; C53 no atomicity; C54 unvalidated rules; C55 search; C59 all-day cover; C60 stale delete; C63 role changes; C64 unknown participants; C66 whole-day events imported twice; C88 storages of the same id; C89 specifications used twice; C122/C123 what later subscribers hear; C137 clocks put back; C167 periods made by `Period`; C168-C175 threads.
Shown without a `_refuted` theorem: C155 the default attendee list that unrelated calls share (`C155_default_shared`).

Further observations, visible in the model but without a property of their own: empty lists of categories or attendees in
criteria match nothing; an event without duration makes every bounded query raise TypeError; the main attendee of a
calendar is the first in dictionary order; `weeknr2datetime` overflows for the last days of 9999; a weekly BYDAY with an
ordinal raises ValueError on import; of several components with the same id in one text the last one wins for a known
event and the first one for a new event; a DTEND before DTSTART gives a negative duration.

## Trusted base

* Coq's kernel (8.16.1) and `vm_compute`, used in examples and refutations.
* `Print Assumptions` under every property theorem reports "Closed under the global context": no axioms, neither own ones
  nor from the standard library. (`coqchk -o` and the build gate list seven items of `Coq.ssr.ssrunder`; they are sealed
  module fields of a library loaded by `ZifyBool` and no theorem depends on them.)
* The reading of the Python code: every definition cites the lines it models, simplifications are stated there.
  `Conform.v` runs the model on the repository's own unit tests and doctests; it gives the expected answers on all of them.

Modelled: `cal.py` (everything except the items below), `recurrent.py`, `util.py`, `isoweek.py`, the notifications of
`events.py`.

Attendee lists of specifications are values in all models but Defaults. Category sets and rule objects are values in all models but Alias, which treats them as objects changed in place
(C89_as_values says when values are enough).

Not modelled: the `icalendar` parser and printer (see above); `zope` interface declarations and schemas, except the interfaces of notifications (C156)
(`interfaces.py`, `schema.py`); subscribers that act while being notified, except in `React.v` (C110-C114: methods of the event they are told about, without a memory) and
`Deliver.v` (C115-C118, C122-C125: programs of any calls, with a memory, that may catch and raise) (everywhere else notifications are an output list); Python identity (`is`) of type
strings; the difference between datetimes with and without time zone in until and exceptions, except in `Aware.v` (C153; comparing
one with the other raises TypeError); hash values (a parameter in `RuleAttr.v`); the limits of `timedelta` itself (999999999 days, OverflowError beyond) except in `Limits.v` (C148 shows that they matter only to `alldayAdjust` and `roundtimedelta` of longer durations); the wall clock (an argument) and the host name (a parameter); events compared with objects of other
classes; `getCurrentYear`, `getToday`; bounds of periods other than datetimes and None, except in `Periods.v` (C167);
`getCurrentUserAttendee` and `getCurrentUserAttendeeId`, which return None; thread interleavings (the code has no locking; a step is one call), except for createEvent, deleteEvent and setParticipationStatus in `Threads.v` (C168) and for invite, setParticipationStatus and setParticipationRole of one event in `Invites.v` (C169), getEvents and getOccurrences in `Reads.v` (C170), getBlockedPeriods and getFreePeriods in `BusyRun.v` (C171), the components and deletions of an import in `ImportRun.v` (C172; each of them is one step) and `FineImport.v` (C173; looking up is a step of its own), the reads of an export in `ExportRun.v` (C174), and setOnObject in `Editors.v` (C175).

## Seeded bugs

`seeded/LOG.jsonl` has one line per attempt; `commit` is the state the edit was applied to. A failing proof is replaced by
`Admitted` in the scratch copy and the build goes on, so one run shows every place that breaks.

* `proofs_broken`: the proofs whose script failed.
* `theorems_failed`: the property theorems among them, and those that use one of them, directly or not, by name.
* `examples_failed`: the `Example`s among the broken proofs. They are computed, so these are false, not just unproved.
* `result`: `noticed` if some property theorem failed, `noticed, but not by ...` if those of a claimed property all still
  proved, `unnoticed` if none failed.

What this does not show: a script that fails does not prove that its statement became false. A theorem counted through a
broken lemma may still be true of the edited model and only need another proof. So `theorems_failed` is an upper bound on
the theorems that rule the bug out; `unnoticed` and `but not by` are reliable.

For the commits cc14764, df8b9af, e8c031f, bb81ae5, 6f7dd7e, af95c20, fe9f204 (S ids), c404e84, 3546168, db103ec, cbed439, 2f81ab5, e6e30dc, 521ac4d, b77cdde, 86045a1, c29d1dc, 33ddcfe, 65148a1, 1bdc242, aacde28, dc11c8a, aa3aa0b, 2b62fef, c5e5232, 3d1b460, c532fa2, 2bb8023, 07cc28d, 94d6a02 and 218ad7d, and part of 64c56c6, only the files that the
theorems of the claimed property need were rebuilt. There `theorems_failed` leaves out theorems in other files.
