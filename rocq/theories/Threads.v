(** Several threads calling createEvent, deleteEvent and setParticipationStatus at the same time.  The code
    has no locks, so between any two of the actions below another thread may run.  An action
    is a single access to a shared dictionary, or the call of notify.  Simplifications: the
    construction of an event and its entry in the dictionary are one action (nobody else can
    see the object before the entry), and subscribers do nothing. *)
From Verif Require Import Base PyDate Recurrent CalTime Event Storage ICal System.

(** the calls, cal.py 139-150 and 419-426 *)
Inductive call :=
| KCreate (uid : option string) (sp : spec) (now : Z)
| KStatus (r : nat) (a : attendee) (st : option string)
| KDelete (r : nat).

(** where a thread is *)
Inductive thread :=
| Begun (c : call)                                           (* the call, cal.py 143, 148 and 419 *)
| Named (u : string) (sp : spec)                             (* after the id was made, cal.py 268-271 *)
| Asked (r : nat) (i : string) (old new : option string)     (* after old_status was read and compared, cal.py 422-424 *)
| Forgot (r : nat) (i : string) (old : option string)        (* between the two deletions, cal.py 432-433 *)
| Ready (n : notification)                                   (* before notify, cal.py 145, 150 and 426 *)
| Ended (x : res unit).                                      (* returned or raised *)

(** the event object changed in place, cal.py 432, 433, 435 *)
Definition put (s : system) (r : nat) (e : event) : system := with_heap s (replace_nth r (sys_heap s) e).

(** one action of a thread, cal.py 143-150, 267-277, 419-435 *)
Definition tstep (cf : config) (s : system) (t : thread) : system * list notification * thread :=
  match t with
  | Begun (KCreate uid sp now) =>
      (s, [], Named (match uid with Some u => u | None => generated_id cf now (List.length (sys_store s)) end) sp)
  | Named u sp =>
      match new_event u sp with
      | Ok e =>
          (mkSys (sys_heap s ++ [e]) (dset (sys_store s) u (List.length (sys_heap s))) (sys_source s) (sys_cals s),
           [], Ready (NCreated u))
      | Raise x => (s, [], Ended (Raise x))
      | OutOfFuel => (s, [], Ended OutOfFuel)
      end
  | Begun (KStatus r a st) =>
      if match st with None => true | Some v => str_in v statuses end then
        match a with
        | Some i =>
            let old := dget (e_state (obj s r)) i in
            (s, [], if opt_str_eqb old st then Ended (Ok tt) else Asked r i old st)
        | None => (s, [], Ended (Raise AttributeError))
        end
      else (s, [], Ended (Raise AssertionError))
  | Begun (KDelete r) =>
      match ddel (sys_store s) (e_uid (obj s r)) with
      | Ok d => (with_store s d, [], Ready (NDeleted (e_uid (obj s r))))
      | Raise x => (s, [], Ended (Raise x))
      | OutOfFuel => (s, [], Ended OutOfFuel)
      end
  | Asked r i old (Some v) =>
      let e := obj s r in
      (put s r (with_state e (dset (e_state e) i v)), [], Ready (NParticipation (e_uid e) i old (Some v)))
  | Asked r i old None =>
      let e := obj s r in
      match ddel (e_state e) i with
      | Ok d => (put s r (with_state e d), [], Forgot r i old)
      | Raise x => (s, [], Ended (Raise x))
      | OutOfFuel => (s, [], Ended OutOfFuel)
      end
  | Forgot r i old =>
      let e := obj s r in
      match ddel (e_role e) i with
      | Ok d => (put s r (with_role e d), [], Ready (NParticipation (e_uid e) i old None))
      | Raise x => (s, [], Ended (Raise x))
      | OutOfFuel => (s, [], Ended OutOfFuel)
      end
  | Ready n => (s, [n], Ended (Ok tt))
  | Ended x => (s, [], Ended x)
  end.

(** everything there is: the state, who announced what so far, and the threads *)
Definition running := (system * list (nat * notification) * list thread)%type.

(** thread [j] does its next action, cal.py 143-150, 267-277, 419-435 *)
Definition go (cf : config) (w : running) (j : nat) : running :=
  let '(s, out, ts) := w in
  match nth_error ts j with
  | Some t => let '(s', n, t') := tstep cf s t in (s', out ++ map (pair j) n, replace_nth j ts t')
  | None => w
  end.

(** the threads take turns as the schedule says *)
Definition take_turns (cf : config) (w : running) (sched : list nat) : running := fold_left (go cf) sched w.

(** all calls begin, cal.py 143, 148 and 419 *)
Definition start (s : system) (cs : list call) : running := (s, [], map Begun cs).

(** the same call as an operation of System.v, cal.py 139-150 and 419-426 *)
Definition op_of (c : call) : op :=
  match c with KCreate uid sp now => OCreate uid sp now | KStatus r a st => OSetStatus r a st | KDelete r => ODelete r end.
