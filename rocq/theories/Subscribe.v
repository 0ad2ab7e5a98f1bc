(** Subscribers that go by interface: which notification provides which
    interface (src/calcore/events.py 25-56, src/calcore/interfaces.py 789-808).

    Simplification: [implements] and [providedBy] of zope.interface are described
    by what they do here: an object provides the interfaces that its class or a
    base class of it declares, and those they extend. *)
From Verif Require Import Base Event System Deliver.

(** interfaces.py 789-808 *)
Inductive iface := IEventEvent | IEventCreatedEvent | IEventModifiedEvent | IEventDeletedEvent | IEventParticipationChangeEvent.

(** what an interface extends, interfaces.py 794, 797, 800, 803 *)
Definition extends (i : iface) : option iface :=
  match i with
  | IEventEvent => None
  | IEventCreatedEvent | IEventModifiedEvent | IEventDeletedEvent => Some IEventEvent
  | IEventParticipationChangeEvent => Some IEventModifiedEvent
  end.

(** events.py 25-48 *)
Inductive eclass := EventEvent | EventCreatedEvent | EventModifiedEvent | EventDeletedEvent | EventParticipationChangeEvent.

(** base classes, events.py 25, 33, 38, 43, 48 *)
Definition base (c : eclass) : option eclass :=
  match c with
  | EventEvent => None
  | EventCreatedEvent | EventModifiedEvent | EventDeletedEvent => Some EventEvent
  | EventParticipationChangeEvent => Some EventModifiedEvent
  end.

(** [implements(...)], events.py 27, 35, 40, 45, 50 *)
Definition implements (c : eclass) : iface :=
  match c with
  | EventEvent => IEventEvent
  | EventCreatedEvent => IEventCreatedEvent
  | EventModifiedEvent => IEventModifiedEvent
  | EventDeletedEvent => IEventDeletedEvent
  | EventParticipationChangeEvent => IEventParticipationChangeEvent
  end.

(** upwards from [a]; the hierarchies of events.py 25-48 and interfaces.py 789-808
    have three levels *)
Fixpoint upwards {A} (up : A -> option A) (levels : nat) (a : A) : list A :=
  match levels with
  | O => []
  | S n => a :: match up a with Some b => upwards up n b | None => [] end
  end.

(** the class instantiated at cal.py 145, 741, 150, 426 *)
Definition class_of (x : notification) : eclass :=
  match x with
  | NCreated _ => EventCreatedEvent
  | NModified _ => EventModifiedEvent
  | NDeleted _ => EventDeletedEvent
  | NParticipation _ _ _ _ => EventParticipationChangeEvent
  end.

(** the interfaces an object of the class provides, events.py 25-50 *)
Definition provided (c : eclass) : list iface :=
  flat_map (fun d => upwards extends 3 (implements d)) (upwards base 3 c).

(** equality of interfaces, interfaces.py 789-808 *)
Definition iface_dec (i j : iface) : {i = j} + {i <> j}.
Proof. decide equality. Defined.

(** [interface.providedBy(eventevent)], as in tests/test_cal.py 8 *)
Definition provided_by (i : iface) (x : notification) : bool := if in_dec iface_dec i (provided (class_of x)) then true else false.

(** a subscriber that looks at the interface first, as in tests/test_cal.py 7-12 *)
Definition if_provides {M} (l : list iface) (w : watcher M) : watcher M :=
  fun k s r x => if existsb (fun i => provided_by i x) l then w k s r x else Return k (Ok tt).
