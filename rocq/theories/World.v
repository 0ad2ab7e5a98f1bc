(** Several storages and storage managers (src/calcore/cal.py 127-171, 255-258,
    311-313, 646-654, 903-919, 988-1004) over the single-storage model of System.v.

    A storage manager passes every call to the storage it was given last
    (setStorage); before that its storage is None and every such call raises
    AttributeError.  Storages share the attendee source and the calendars.
    Simplification: there is one attendee source, used by all calendars. *)
From Verif Require Import Base PyDate Recurrent CalTime Event Storage ICal System.

(** A storage: the event objects it created, its dictionary, its id and host
    name.  See cal.py 255-258, 272-273. *)
Record box := mkBox {
  b_heap : list event;
  b_store : dict nat;
  b_id : string;
  b_host : string }.

(** [w_managers]: the _storage attribute of each manager (cal.py 131-137);
    [w_cals]: the manager and the attendees of each calendar (cal.py 663-667,
    994-998); [w_source]: cal.py 1013-1015. *)
Record world := mkWorld {
  w_boxes : list box;
  w_managers : list (option nat);
  w_source : dict (string * string);
  w_cals : list (nat * dict unit) }.

(** nothing created yet, cal.py 1013-1015 *)
Definition winit : world := mkWorld [] [] [] [].

(** an absent storage, cal.py 132 *)
Definition no_box : box := mkBox [] [] "" "".
(** storage number [k], cal.py 255-258 *)
Definition the_box (w : world) (k : nat) : box := nth k (w_boxes w) no_box.

(** self._storage of manager [m], cal.py 131-137 *)
Definition storage_of (w : world) (m : nat) : option nat := nth m (w_managers w) None.
(** self._storage_manager of calendar [c], cal.py 994-1001 *)
Definition manager_of (w : world) (c : nat) : nat := fst (nth c (w_cals w) (0%nat, [])).

(** what can be reached through storage [k]: the state of System.v, cal.py 255-258 *)
Definition view (w : world) (k : nat) : system :=
  mkSys (b_heap (the_box w k)) (b_store (the_box w k)) (w_source w) (map snd (w_cals w)).
(** the parameters of storage [k], cal.py 255-258 *)
Definition cf_of (tz : Z -> Z) (w : world) (k : nat) : config :=
  mkConfig (b_id (the_box w k)) (b_host (the_box w k)) tz.

(** storage [k] after a call that changed its objects or its dictionary, cal.py 87-105, 273, 277, 413-453 *)
Definition put (w : world) (k : nat) (s : system) : world :=
  mkWorld (replace_nth k (w_boxes w) (mkBox (sys_heap s) (sys_store s) (b_id (the_box w k)) (b_host (the_box w k))))
          (w_managers w) (w_source w) (w_cals w).

(** a call that raises or returns, as in System.v (cal.py 139-150) *)
Definition wmut (A : Type) := (world * list notification * res A)%type.

(** a call answered by storage [k], cal.py 139-150 *)
Definition through (tz : Z -> Z) (w : world) (k : nat) (o : op) : wmut unit :=
  let '(s, n, r) := step (cf_of tz w k) (view w k) o in (put w k s, n, r).

(** [self._storage.f(...)], cal.py 144, 149, 155: with no storage, None has no such attribute *)
Definition by_manager (w : world) (m : nat) (f : nat -> wmut unit) : wmut unit :=
  match storage_of w m with Some k => f k | None => (w, [], Raise AttributeError) end.

(** StorageBase.deleteEvent with an event of any storage, cal.py 276-277: by its unique id *)
Definition delete_by_id (w : world) (k : nat) (uid : string) : wmut unit :=
  match ddel (b_store (the_box w k)) uid with
  | Ok d => (put w k (with_store (view w k) d), [NDeleted uid], Ok tt)
  | Raise x => (w, [], Raise x)
  | OutOfFuel => (w, [], OutOfFuel)
  end.

(** the methods of an event, and assignments to it: cal.py 413-453 and 87-105 *)
Inductive method :=
| MInvite (l : list attendee)
| MSetStatus (a : attendee) (st : option string)
| MSetRole (a : attendee) (role : string)
| MAdjust
| MAssign (sp : spec)
| MSpecify (sp : spec).

(** the operation of System.v for a method call, cal.py 413-453 and 87-105 *)
Definition call (r : nat) (x : method) : op :=
  match x with
  | MInvite l => OInvite r l
  | MSetStatus a st => OSetStatus r a st
  | MSetRole a role => OSetRole r a role
  | MAdjust => OAdjust r
  | MAssign sp => OAssign r sp
  | MSpecify sp => OSpecify r sp
  end.

(** cal.py 87-105, 131-150, 255-258, 413-453, 607-609, 671-675, 690-734, 994-998,
    1019-1031.  An event object is a storage (the one that created it) and a
    position in it. *)
Inductive wop :=
| WManager                                                    (* StorageManager() *)
| WStorage (id host : string)                                 (* MemoryStorage(id, host) *)
| WSetStorage (m k : nat)                                     (* manager.setStorage(storage) *)
| WCreate (m : nat) (uid : option string) (sp : spec) (now : Z)
| WAttendeeCreate (m : nat) (i : string) (sp : spec) (now : Z) (* an attendee of that manager *)
| WDelete (m k r : nat)
| WEvent (k r : nat) (x : method)
| WAttendee (i name typ : string)
| WCalendar (m : nat)
| WAddAttendee (c : nat) (a : attendee)
| WRemoveAttendee (c : nat) (a : attendee)
| WImport (c : nat) (parsed : res (option (list vevent))) (p : period) (cr : option criteria) (sync : bool).

(** one of the operations that concern the source and the calendars only, done
    without any storage: cal.py 671-675, 1019-1031 *)
Definition apart (tz : Z -> Z) (w : world) (o : op) : wmut unit :=
  let '(s, n, r) := step (mkConfig "" "" tz) (mkSys [] [] (w_source w) (map snd (w_cals w))) o in
  (mkWorld (w_boxes w) (w_managers w) (sys_source s) (List.combine (map fst (w_cals w)) (sys_cals s)), n, r).

(** import_ by a calendar whose manager has no storage, cal.py 704 and 912-919:
    the attendees are looked up first *)
Definition import_nowhere (w : world) (c : nat) : res unit :=
  let* _ := cal_attendees (mkSys [] [] (w_source w) (map snd (w_cals w))) c in Raise AttributeError.

(** one call by the user of the API: cal.py 87-105, 131-150, 255-258, 413-453,
    607-609, 671-675, 690-734, 994-998, 1019-1031 *)
Definition wstep (tz : Z -> Z) (w : world) (o : wop) : wmut unit :=
  match o with
  | WManager => (mkWorld (w_boxes w) (w_managers w ++ [None]) (w_source w) (w_cals w), [], Ok tt)
  | WStorage id host =>
      (mkWorld (w_boxes w ++ [mkBox [] [] id host]) (w_managers w) (w_source w) (w_cals w), [], Ok tt)
  | WSetStorage m k =>
      (mkWorld (w_boxes w) (replace_nth m (w_managers w) (Some k)) (w_source w) (w_cals w), [], Ok tt)
  | WCreate m uid sp now => by_manager w m (fun k => through tz w k (OCreate uid sp now))
  | WAttendeeCreate m i sp now => by_manager w m (fun k => through tz w k (OAttendeeCreate i sp now))
  | WDelete m k' r => by_manager w m (fun k => delete_by_id w k (e_uid (obj (view w k') r)))
  | WEvent k r x => through tz w k (call r x)
  | WAttendee i name typ => apart tz w (OAttendee i name typ)
  | WCalendar m => (mkWorld (w_boxes w) (w_managers w) (w_source w) (w_cals w ++ [(m, [])]), [], Ok tt)
  | WAddAttendee c a => apart tz w (OAddAttendee c a)
  | WRemoveAttendee c a => apart tz w (ORemoveAttendee c a)
  | WImport c parsed p cr sync =>
      match storage_of w (manager_of w c) with
      | Some k => through tz w k (OImport c parsed p cr sync)
      | None => (w, [], import_nowhere w c)
      end
  end.

(** manager.getEvent, cal.py 154-155: the storage and the object *)
Definition w_get_event (w : world) (m : nat) (uid : string) : res (nat * nat) :=
  match storage_of w m with
  | Some k => let* r := get_event (view w k) uid in Ok (k, r)
  | None => Raise AttributeError
  end.

(** manager.hasEvent, cal.py 157-162: only KeyError is caught *)
Definition w_has_event (w : world) (m : nat) (uid : string) : res bool :=
  match w_get_event w m uid with
  | Ok _ => Ok true
  | Raise KeyError => Ok false
  | Raise x => Raise x
  | OutOfFuel => OutOfFuel
  end.

(** calendar.getEvents, cal.py 912-919 *)
Definition w_cal_events (w : world) (c : nat) (p : period) (cr : option criteria) : res (list event) :=
  match storage_of w (manager_of w c) with
  | Some k => cal_events (view w k) c p cr
  | None => let* _ := cal_attendees (mkSys [] [] (w_source w) (map snd (w_cals w))) c in Raise AttributeError
  end.

(** what any sequence of such calls can produce, from cal.py 1013-1015 on.  Every storage, manager and
    calendar referred to exists. *)
Definition refers (w : world) (o : wop) : Prop :=
  match o with
  | WManager | WStorage _ _ | WAttendee _ _ _ => True
  | WSetStorage m k => (m < List.length (w_managers w))%nat /\ (k < List.length (w_boxes w))%nat
  | WCreate m _ _ _ | WAttendeeCreate m _ _ _ | WCalendar m => (m < List.length (w_managers w))%nat
  | WDelete m k r => (m < List.length (w_managers w))%nat /\ (k < List.length (w_boxes w))%nat
      /\ (r < List.length (b_heap (the_box w k)))%nat
  | WEvent k r _ => (k < List.length (w_boxes w))%nat /\ (r < List.length (b_heap (the_box w k)))%nat
  | WAddAttendee c _ | WRemoveAttendee c _ | WImport c _ _ _ _ => (c < List.length (w_cals w))%nat
  end.

(** the sequences of such calls, from cal.py 1013-1015 on, with what each announced and returned *)
Inductive whistory (tz : Z -> Z) : world -> list (wop * list notification * res unit) -> Prop :=
| whistory_init : whistory tz winit []
| whistory_step w h o w' n r : whistory tz w h -> refers w o -> wstep tz w o = (w', n, r) ->
    whistory tz w' (h ++ [(o, n, r)]).
