(** import_ while other users work on the same events.  As ImportRun.v, but looking an event up
    and working on what was found are two actions, and others may make calls in between.
    Simplification: reading a component, comparing it with the event and changing the event is
    one action, and so is every call of the others. *)
From Verif Require Import Base PyDate Recurrent CalTime Event Storage ICal System SystemProofs ImportRun.

(** where the call is: before a component or at the end of the loop (cal.py 712); about to edit
    the event [r] that getEvent has given (738); about to make the event that hasEvent has not
    found (724); before a deletion (733); about to delete the event [r] that getEvent has given
    (734); or returned or raised *)
Inductive fimporter :=
| FLoop (known seen : list string) (todo : list vevent)
| FEdit (known seen : list string) (u : string) (r : nat) (v : vevent) (todo : list vevent)
| FMake (known seen : list string) (u : string) (v : vevent) (todo : list vevent)
| FGone (todo : list string)
| FDrop (r : nat) (todo : list string)
| FOver (r : res unit).

(** up to the loop, cal.py 703-711 *)
Definition fbegin (j : job) (s : system) : fimporter :=
  match ibegin j s with
  | ILoop known seen todo => FLoop known seen todo
  | IGone todo => FGone todo
  | IOver r => FOver r
  end.

(** where a failed statement leaves the call, cal.py 712-734 *)
Definition fthen {A} (r : res A) (f : A -> fimporter) : fimporter :=
  match r with Ok a => f a | Raise x => FOver (Raise x) | OutOfFuel => FOver OutOfFuel end.

(** _importExistingEvent after getEvent, cal.py 738-741 *)
Definition edit_event (cf : config) (s : system) (c : nat) (r : nat) (v : vevent) : smut unit :=
  sbind (slift s (import_spec (cf_tz cf) (source_knows s) (main_attendee s c) v)) (fun s sp =>
  sbind (slift s (will_modify sp (obj s r))) (fun s b =>
  if b : bool then
    sbind (on_event s r (set_on_object sp)) (fun s _ => (s, [NModified (e_uid (obj s r))], Ok tt))
  else sret s tt)).

(** one action: looking up for a component (cal.py 713-722, 737), editing (738-741), making
    (743-746), the end of the loop (729-732), looking up for a deletion (734), deleting (734),
    the end *)
Definition fact (cf : config) (j : job) (s : system) (i : fimporter) : system * list notification * fimporter :=
  match i with
  | FLoop known seen (v :: todo) =>
      (s, [],
       match v_uid v with
       | None => FOver (Raise KeyError)
       | Some u =>
           if str_in u known then fthen (get_event s u) (fun r => FEdit known seen u r v todo)
           else if has_event s u then FLoop known (seen ++ [u]) todo
           else FMake known seen u v todo
       end)
  | FEdit known seen u r v todo =>
      let m := edit_event cf s (j_cal j) r v in
      (sst m, snt m, fthen (srs m) (fun _ => FLoop known (seen ++ [u]) todo))
  | FMake known seen u v todo =>
      let m := import_new cf s (j_cal j) u v in
      (sst m, snt m, fthen (srs m) (fun _ => FLoop known (seen ++ [u]) todo))
  | FLoop known seen [] =>
      (s, [], if j_sync j then FGone (filter (fun u => negb (str_in u seen)) known) else FOver (Ok tt))
  | FGone (u :: todo) => (s, [], fthen (get_event s u) (fun r => FDrop r todo))
  | FDrop r todo =>
      let m := delete_event s r in
      (sst m, snt m, fthen (srs m) (fun _ => FGone todo))
  | FGone [] => (s, [], FOver (Ok tt))
  | FOver r => (s, [], FOver r)
  end.

(** a turn, with what the import has announced so far; cal.py 712-746 *)
Definition fturn (cf : config) (j : job) (w : system * list notification * fimporter) (t : turn)
  : system * list notification * fimporter :=
  let '(s, ns, i) := w in
  match t with
  | Others o => (sst (step cf s o), ns, i)
  | Mine => let '(s', n, i') := fact cf j s i in (s', ns ++ n, i')
  end.

(** the import lists the calendar in [s], and then these turns follow; cal.py 690-746 *)
Definition frun (cf : config) (j : job) (s : system) (ts : list turn) : system * list notification * fimporter :=
  fold_left (fturn cf j) ts (s, [], fbegin j s).

(** the imports begun so far, each with what it has announced and where it is; cal.py 690-746 *)
Definition fimports := list (job * list notification * fimporter).

(** a turn of several imports and calls (as mstep of ImportRun.v); cal.py 690-746 *)
Definition fmstep (cf : config) (w : system * fimports) (t : mturn) : system * fimports :=
  let '(s, l) := w in
  match t with
  | MCall o => (sst (step cf s o), l)
  | MBegin j => (s, l ++ [(j, [], fbegin j s)])
  | MAct k =>
      match nth_error l k with
      | Some (j, ns, i) => let '(s', n, i') := fact cf j s i in (s', replace_nth k l (j, ns ++ n, i'))
      | None => (s, l)
      end
  end.

(** any sequence of turns; cal.py 690-746 *)
Definition fmrun (cf : config) (s : system) (ts : list mturn) : system * fimports := fold_left (fmstep cf) ts (s, []).
