(** import_ of a calendar while other users work on the events.  The call lists the calendar,
    deals with the components of the text one by one and then, when synchronizing, deletes the
    missing events one by one.  Between these actions the others may make any calls.
    Simplification: dealing with one component, and deleting one event, is one action here, and
    so is every call of the others; what happens inside of createEvent, deleteEvent and
    setParticipationStatus is in Threads.v.  The announcements of the others are not recorded. *)
From Verif Require Import Base PyDate Recurrent CalTime Event Storage ICal System SystemProofs.

(** the call: calendar, text as parsed, period, criteria, synchronize; cal.py 690-691 *)
Record job := mkJob { j_cal : nat; j_text : res (option (list vevent)); j_period : period;
  j_criteria : option criteria; j_sync : bool }.

(** where the call is: in the loop over the components (cal.py 712) with [known_uids], the ids
    met so far and the components to come; in the loop that deletes (cal.py 733) with the ids to
    come; or returned or raised *)
Inductive importer :=
| ILoop (known seen : list string) (todo : list vevent)
| IGone (todo : list string)
| IOver (r : res unit).

(** up to the loop, cal.py 703-711 *)
Definition ibegin (j : job) (s : system) : importer :=
  match cal_events s (j_cal j) (j_period j) (j_criteria j) with
  | Ok events =>
      match j_text j with
      | Ok (Some vs) => ILoop (nodup string_dec (map e_uid events)) [] vs
      | Ok None => IOver (Ok tt)
      | Raise x => IOver (Raise x)
      | OutOfFuel => IOver OutOfFuel
      end
  | Raise x => IOver (Raise x)
  | OutOfFuel => IOver OutOfFuel
  end.

(** where a failed statement leaves the call, cal.py 712-734 *)
Definition ithen {A} (r : res A) (f : A -> importer) : importer :=
  match r with Ok a => f a | Raise x => IOver (Raise x) | OutOfFuel => IOver OutOfFuel end.

(** one action: a component (cal.py 712-728), the end of that loop (729-732), a deletion
    (733-734), the end *)
Definition iact (cf : config) (j : job) (s : system) (i : importer) : system * list notification * importer :=
  match i with
  | ILoop known seen (v :: todo) =>
      let m := import_one cf s (j_cal j) known v in
      (sst m, snt m, ithen (srs m) (fun u => ILoop known (seen ++ [u]) todo))
  | ILoop known seen [] =>
      (s, [], if j_sync j then IGone (filter (fun u => negb (str_in u seen)) known) else IOver (Ok tt))
  | IGone (u :: todo) =>
      let m := sbind (slift s (get_event s u)) (fun s r => delete_event s r) in
      (sst m, snt m, ithen (srs m) (fun _ => IGone todo))
  | IGone [] => (s, [], IOver (Ok tt))
  | IOver r => (s, [], IOver r)
  end.

(** whose turn it is: another user's, who makes a call, or the import's; between any two
    statements of cal.py 712-734 *)
Inductive turn := Others (o : op) | Mine.

(** a turn, with what the import has announced so far; cal.py 712-734 *)
Definition iturn (cf : config) (j : job) (w : system * list notification * importer) (t : turn)
  : system * list notification * importer :=
  let '(s, ns, i) := w in
  match t with
  | Others o => (sst (step cf s o), ns, i)
  | Mine => let '(s', n, i') := iact cf j s i in (s', ns ++ n, i')
  end.

(** the import lists the calendar in [s], and then these turns follow; cal.py 690-734 *)
Definition irun (cf : config) (j : job) (s : system) (ts : list turn) : system * list notification * importer :=
  fold_left (iturn cf j) ts (s, [], ibegin j s).

(** ** several imports at once *)
(** somebody makes a call, somebody begins an import (cal.py 690), or the import of this number
    goes on (cal.py 712-734) *)
Inductive mturn := MCall (o : op) | MBegin (j : job) | MAct (k : nat).

(** the imports begun so far, each with what it has announced and where it is; cal.py 690-734 *)
Definition imports := list (job * list notification * importer).

(** a turn; nothing happens if there is no such import; cal.py 690-734 *)
Definition mstep (cf : config) (w : system * imports) (t : mturn) : system * imports :=
  let '(s, l) := w in
  match t with
  | MCall o => (sst (step cf s o), l)
  | MBegin j => (s, l ++ [(j, [], ibegin j s)])
  | MAct k =>
      match nth_error l k with
      | Some (j, ns, i) => let '(s', n, i') := iact cf j s i in (s', replace_nth k l (j, ns ++ n, i'))
      | None => (s, l)
      end
  end.

(** any sequence of turns; cal.py 690-734 *)
Definition mrun (cf : config) (s : system) (ts : list mturn) : system * imports := fold_left (mstep cf) ts (s, []).
