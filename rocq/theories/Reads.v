(** getEvents and getOccurrences of the storage while other threads change it: an action reads
    one thing of one event, and before each action the others may have done anything, so the
    run is given by the list of the states that the actions see.  Simplifications: the values()
    of the dictionary of events is one action (it makes a list), and so are reading the
    categories of an event, inPeriod and expand. *)
From Verif Require Import Base PyDate Recurrent CalTime Event Storage System.

(** which of the two calls, cal.py 287 and 291; [fuel] as in Event.v *)
Inductive reading := REvents | ROccurrences (fuel : nat).
(** its arguments, cal.py 287 and 291; a search_criteria of None is null_criteria (cal.py 302-303) *)
Record query := mkQuery { q_kind : reading; q_period : period; q_crit : criteria }.
(** what it returns, cal.py 289 and 297: events, or occurrences with their events *)
Inductive answer := Found (l : list nat) | Expanded (l : list (nat * occurrence event)).

(** where the call is; [todo] are the events not yet looked at, [acc] those that matched *)
Inductive reader :=
| RBegin                                                                (* the call, cal.py 287-291 *)
| RLook (todo acc : list nat)                                           (* before the next event, cal.py 306-307 *)
| ROrg (r : nat) (todo acc : list nat)                                  (* before the organizer, cal.py 360 *)
| RHas (r : nat) (l : list attendee) (todo acc : list nat)              (* before the next attendee, cal.py 367-368 *)
| RStat (r : nat) (a : attendee) (l : list attendee) (todo acc : list nat) (* before the status, cal.py 371 *)
| RRole (r : nat) (a : attendee) (l : list attendee) (todo acc : list nat) (* before the role, cal.py 376 *)
| RIn (todo out : list nat)                                             (* before the next inPeriod, cal.py 289 *)
| RExp (todo : list nat) (out : list (nat * occurrence event))          (* before the next expand, cal.py 295-296 *)
| RDone (x : res answer).                                               (* returned or raised *)

(** the value, or the end of the call by an exception, any of cal.py 287-385 *)
Definition rgo {A} (x : res A) (f : A -> reader) : reader :=
  match x with Ok v => f v | Raise e => RDone (Raise e) | OutOfFuel => RDone OutOfFuel end.

(** the next action, in state [s], cal.py 287-309 and 352-385 *)
Definition rstep (q : query) (s : system) (t : reader) : reader :=
  let c := q_crit q in
  match t with
  | RBegin =>
      rgo (match q_kind q with REvents => Ok tt | ROccurrences _ => let* _ := assert_bounded (q_period q) in Ok tt end)
          (fun _ => RLook (map snd (sys_store s)) [])
  | RLook [] acc => match q_kind q with REvents => RIn acc [] | ROccurrences _ => RExp acc [] end
  | RLook (r :: todo) acc =>
      if match c_categories c with Some cats => negb (existsb (in_category (obj s r)) cats) | None => false end
      then RLook todo acc else ROrg r todo acc
  | ROrg r todo acc =>
      rgo (match c_organizer c with
           | Some o => let* i := attendee_id o in Ok (negb (opt_str_eqb (get_organizer_id (obj s r)) (Some i)))
           | None => Ok false
           end)
          (fun wrong : bool => if wrong then RLook todo acc
             else match c_attendees c with None => RLook todo (acc ++ [r]) | Some l => RHas r l todo acc end)
  | RHas r [] todo acc => RLook todo acc
  | RHas r (a :: l) todo acc =>
      rgo (has_attendee (obj s r) a) (fun h : bool => if h then RStat r a l todo acc else RHas r l todo acc)
  | RStat r a l todo acc =>
      rgo (get_status (obj s r) a)
          (fun st => if match c_status c with Some v => negb (opt_str_eqb (Some v) st) | None => false end
                     then RHas r l todo acc else RRole r a l todo acc)
  | RRole r a l todo acc =>
      rgo (get_role (obj s r) a)
          (fun ro => if match c_role c with Some v => negb (opt_str_eqb (Some v) ro) | None => false end
                     then RHas r l todo acc else RLook todo (acc ++ [r]))
  | RIn [] out => RDone (Ok (Found out))
  | RIn (r :: todo) out =>
      rgo (in_period (e_dtstart (obj s r)) (e_duration (obj s r)) (q_period q))
          (fun b : bool => RIn todo (if b then out ++ [r] else out))
  | RExp [] out => RDone (Ok (Expanded out))
  | RExp (r :: todo) out =>
      rgo (expand (match q_kind q with ROccurrences f => f | REvents => 0%nat end) (obj s r) (q_period q))
          (fun l => RExp todo (out ++ map (pair r) l))
  | RDone x => RDone x
  end.

(** the call, with the states its actions see, cal.py 287-309 *)
Definition rturns (q : query) (ss : list system) : reader := fold_left (fun t s => rstep q s t) ss RBegin.
