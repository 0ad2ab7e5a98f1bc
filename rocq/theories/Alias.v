(** Objects that can be changed in place: the category sets and recurrence rules
    that specifications and events refer to (src/calcore/cal.py 57-94, 392-403,
    736-746, 785-794, 875-890; recurrent.py 54-59, 95-105).

    The other models treat them as values; here they are objects, so that two
    events can refer to the same one.  Only these two attributes are followed.
    Everything else about a call is in System.v. *)
From Verif Require Import Base PyDate Recurrent CalTime Event Storage ICal System.

(** A Set of categories or a rule object: cal.py 79-81, 877-889, 841-873. *)
Inductive cell := CSet (l : list string) | CRule (r : rule).

(** The attributes [categories] and [recurrence] of a specification (cal.py 77,
    81) or of an event (93): references to objects, or None. *)
Record holder := mkHolder { h_cats : option nat; h_rec : option nat }.

(** All objects, all specifications and all events made so far: cal.py 57-85, 395-403. *)
Record things := mkThings {
  t_cells : list cell;
  t_specs : list holder;
  t_events : list holder }.

(** before the first call, cal.py 255-258 *)
Definition t_init : things := mkThings [] [] [].

(** the object referred to, cal.py 92 *)
Definition the_cell (t : things) (l : nat) : cell := nth l (t_cells t) (CSet []).
(** [spec] or [event] number [n], cal.py 87-93 *)
Definition the_spec (t : things) (n : nat) : holder := nth n (t_specs t) (mkHolder None None).
(** event number [n], cal.py 395-403 *)
Definition the_event (t : things) (n : nat) : holder := nth n (t_events t) (mkHolder None None).

(** [==] of two objects: sets by their elements, rules by recurrent.py 95-105; cal.py 92 *)
Definition cell_eqb (a b : cell) : bool :=
  match a, b with
  | CSet x, CSet y => set_eqb x y
  | CRule x, CRule y => rule_eq x y
  | _, _ => false
  end.

(** [getattr(o, name, _marker) != value], cal.py 92 *)
Definition differ (t : things) (old new : option nat) : bool :=
  match old, new with
  | Some a, Some b => negb (cell_eqb (the_cell t a) (the_cell t b))
  | None, None => false
  | _, _ => true
  end.

(** [if ... != value: setattr(o, name, value)], cal.py 92-93: an equal object is not replaced *)
Definition set_attr (t : things) (old new : option nat) : option nat := if differ t old new then new else old.

(** setOnObject, cal.py 90-94 *)
Definition set_on (t : things) (sp e : holder) : holder :=
  mkHolder (set_attr t (h_cats e) (h_cats sp)) (set_attr t (h_rec e) (h_rec sp)).

(** calls by the user: cal.py 57-94, 139-146, 690-746; recurrent.py 54-59.  The
    user can refer to any object made so far, for instance by reading it from an event. *)
Inductive aop :=
| ANew (c : cell)                                   (* Set(...), or a rule's constructor *)
| ASpecify (cats rec : option nat)                  (* EventSpecification(...) *)
| ACreate (sp : nat)                                (* createEventFromSpecification(uid, spec) *)
| AApply (sp e : nat)                               (* spec.setOnObject(event) *)
| AAssign (e : nat) (cats rec : option nat)         (* event.categories = ..., event.recurrence = ... *)
| AChange (l : nat) (c : cell)                      (* in place: categories.add(...), rule.interval = ... *)
| AImportNew (cats : list string) (rec : option rule)          (* import_, an event not known *)
| AImportOld (e : nat) (cats : list string) (rec : option rule) (* import_, a known event *).

(** the objects made for an imported component, cal.py 785-794 (875-890, 841-873) *)
Definition imported (t : things) (cats : list string) (rec : option rule) : list cell * holder :=
  let n := List.length (t_cells t) in
  match rec with
  | None => (t_cells t ++ [CSet cats], mkHolder (Some n) None)
  | Some r => (t_cells t ++ [CSet cats; CRule r], mkHolder (Some n) (Some (S n)))
  end.

(** cal.py 57-94, 139-146, 395-403, 736-746.  EventSpecification makes a new Set
    when it is given none (79-80).  A new event has no attributes yet, so it gets
    those of the specification (92: the marker differs from everything).
    _importExistingEvent calls setOnObject only if willModify says so; when it
    does not, both attributes are equal to the new ones and setOnObject would not
    have replaced them.  The specification of an import is dropped afterwards. *)
Definition astep (t : things) (o : aop) : things :=
  match o with
  | ANew c => mkThings (t_cells t ++ [c]) (t_specs t) (t_events t)
  | ASpecify (Some c) rec => mkThings (t_cells t) (t_specs t ++ [mkHolder (Some c) rec]) (t_events t)
  | ASpecify None rec =>
      mkThings (t_cells t ++ [CSet []]) (t_specs t ++ [mkHolder (Some (List.length (t_cells t))) rec]) (t_events t)
  | ACreate sp => mkThings (t_cells t) (t_specs t) (t_events t ++ [the_spec t sp])
  | AApply sp e => mkThings (t_cells t) (t_specs t) (replace_nth e (t_events t) (set_on t (the_spec t sp) (the_event t e)))
  | AAssign e cats rec => mkThings (t_cells t) (t_specs t) (replace_nth e (t_events t) (mkHolder cats rec))
  | AChange l c => mkThings (replace_nth l (t_cells t) c) (t_specs t) (t_events t)
  | AImportNew cats rec =>
      let (cells, sp) := imported t cats rec in
      mkThings cells (t_specs t) (t_events t ++ [sp])
  | AImportOld e cats rec =>
      let (cells, sp) := imported t cats rec in
      let t' := mkThings cells (t_specs t) (t_events t) in
      mkThings cells (t_specs t) (replace_nth e (t_events t) (set_on t' sp (the_event t e)))
  end.

(** an object that exists, if any: cal.py 77-81 *)
Definition opt_lt (o : option nat) (n : nat) : Prop := match o with Some l => (l < n)%nat | None => True end.
(** every object referred to exists, as for every call of cal.py 57-94, 139-146 *)
Definition arefers (t : things) (o : aop) : Prop :=
  match o with
  | ANew _ | AImportNew _ _ => True
  | ASpecify cats rec => opt_lt cats (List.length (t_cells t)) /\ opt_lt rec (List.length (t_cells t))
  | ACreate sp => (sp < List.length (t_specs t))%nat
  | AApply sp e => (sp < List.length (t_specs t))%nat /\ (e < List.length (t_events t))%nat
  | AAssign e cats rec => (e < List.length (t_events t))%nat /\ opt_lt cats (List.length (t_cells t)) /\ opt_lt rec (List.length (t_cells t))
  | AChange l _ => (l < List.length (t_cells t))%nat
  | AImportOld e _ _ => (e < List.length (t_events t))%nat
  end.

(** the sequences of such calls, from cal.py 255-258 on *)
Inductive ahistory : things -> list aop -> Prop :=
| ahistory_init : ahistory t_init []
| ahistory_step t h o : ahistory t h -> arefers t o -> ahistory (astep t o) (h ++ [o]).
