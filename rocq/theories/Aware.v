(** Datetimes with and without a time zone in the until and the exceptions of a rule
    (src/calcore/recurrent.py 57-58, 91-104, 249-251, 333-335, and their comparison at
    src/calcore/cal.py 90-94 and 110-113).

    Everywhere else in the model a datetime has no zone there.  An UNTIL that ends in Z
    is read as a datetime in UTC, and asking whether it equals one without a zone
    raises TypeError.  Whether and when that happens depends on the order in which
    [self.__dict__.items()] gives the attributes, which is an argument here. *)
From Verif Require Import Base PyDate Recurrent CalTime Event.

(** until and the elements of exceptions, recurrent.py 57-58; [ZAware t off]: clock time [t] at [off] from UTC *)
Inductive zval := ZDate (o : Z) | ZNaive (t : Z) | ZAware (t off : Z) | ZOther.

(** [==], recurrent.py 98 *)
Definition zval_eq (a b : zval) : res bool :=
  match a, b with
  | ZDate x, ZDate y => Ok (x =? y)
  | ZNaive x, ZNaive y => Ok (x =? y)
  | ZAware x o, ZAware y p => Ok (x - o =? y - p)
  | ZNaive _, ZAware _ _ | ZAware _ _, ZNaive _ => Raise TypeError
  | ZOther, ZOther => Ok true
  | _, _ => Ok false
  end.

(** [==] with None, recurrent.py 98 *)
Definition zopt_eq (a b : option zval) : res bool :=
  match a, b with
  | Some x, Some y => zval_eq x y
  | None, None => Ok true
  | _, _ => Ok false
  end.

(** [==] of two tuples, item by item up to the first difference, recurrent.py 98.
    Simplification: exceptions are tuples, as the constructors make them. *)
Fixpoint zlist_eq (l1 l2 : list zval) : res bool :=
  match l1, l2 with
  | [], [] => Ok true
  | x :: xs, y :: ys => let* b := zval_eq x y in if b then zlist_eq xs ys else Ok false
  | _, _ => Ok false
  end.

(** a rule, recurrent.py 54-58, 214-220, 299-305 *)
Record zrule := mkZ {
  z_kind : kind; z_interval : Z; z_count : option Z; z_until : option zval;
  z_exceptions : list zval; z_weekdays : list Z; z_monthly : string }.

(** the sixth component of the tuple, recurrent.py 249-251, 333-335 *)
Definition z_extra (r : zrule) : extra :=
  match z_kind r with KWeekly => XWeekdays (z_weekdays r) | KMonthly => XMonthly (z_monthly r) | _ => XNone end.

(** __eq__, recurrent.py 95-100: the tuples are compared from left to right *)
Definition zrule_eq (a b : zrule) : res bool :=
  if negb (kind_eqb (z_kind a) (z_kind b) && (z_interval a =? z_interval b) && opt_eqb Z.eqb (z_count a) (z_count b)) then Ok false
  else
    let* u := zopt_eq (z_until a) (z_until b) in
    if negb u then Ok false
    else
      let* e := zlist_eq (z_exceptions a) (z_exceptions b) in
      if negb e then Ok false else Ok (extra_eqb (z_extra a) (z_extra b)).

(** [==] of recurrence attributes, cal.py 92 and 112 *)
Definition zrec_eq (a b : option zrule) : res bool :=
  match a, b with
  | Some x, Some y => zrule_eq x y
  | None, None => Ok true
  | _, _ => Ok false
  end.

(** an event and a specification with such a rule: [e_recurrence] and [s_recurrence]
    of the first component are not read; cal.py 62-86, 395-403 *)
Record zevent := mkZe { ze_event : event; ze_rec : option zrule }.
(** cal.py 62-86 *)
Record zspec := mkZs { zs_spec : spec; zs_rec : option zrule }.

(** the attributes the loops at cal.py 90-94 and 110-113 look at *)
Inductive attr :=
| PDtstart | PDuration | PTitle | PDescription | PLocation | PStatus | PRecurrence | PAllday
| PCategories | PTransparent | PAccess | PDocument.

(** [getattr(o, name, _marker) == value], cal.py 92 and 112 *)
Definition attr_eq (a : attr) (s : zspec) (e : zevent) : res bool :=
  let v := zs_spec s in let o := ze_event e in
  match a with
  | PDtstart => Ok (e_dtstart o =? s_dtstart v)
  | PDuration => Ok (opt_eqb Z.eqb (e_duration o) (s_duration v))
  | PTitle => Ok (String.eqb (e_title o) (s_title v))
  | PDescription => Ok (String.eqb (e_description o) (s_description v))
  | PLocation => Ok (String.eqb (e_location o) (s_location v))
  | PStatus => Ok (String.eqb (e_status o) (s_status v))
  | PRecurrence => zrec_eq (ze_rec e) (zs_rec s)
  | PAllday => Ok (Bool.eqb (e_allday o) (s_allday v))
  | PCategories => Ok (set_eqb (e_categories o) (s_categories v))
  | PTransparent => Ok (Bool.eqb (e_transparent o) (s_transparent v))
  | PAccess => Ok (String.eqb (e_access o) (s_access v))
  | PDocument => Ok (opt_str_eqb (e_document o) (s_document v))
  end.

(** [setattr(o, name, value)], cal.py 93 *)
Definition attr_set (a : attr) (s : zspec) (z : zevent) : zevent :=
  let v := zs_spec s in let e := ze_event z in
  let put t d ti de lo st al ca tr ac doc :=
    mkZe (mkEvent (e_uid e) t d ti de lo st (e_recurrence e) al ca tr ac doc (e_organizer e) (e_state e) (e_role e)) (ze_rec z) in
  let t := e_dtstart e in let d := e_duration e in let ti := e_title e in let de := e_description e in
  let lo := e_location e in let st := e_status e in let al := e_allday e in let ca := e_categories e in
  let tr := e_transparent e in let ac := e_access e in let doc := e_document e in
  match a with
  | PDtstart => put (s_dtstart v) d ti de lo st al ca tr ac doc
  | PDuration => put t (s_duration v) ti de lo st al ca tr ac doc
  | PTitle => put t d (s_title v) de lo st al ca tr ac doc
  | PDescription => put t d ti (s_description v) lo st al ca tr ac doc
  | PLocation => put t d ti de (s_location v) st al ca tr ac doc
  | PStatus => put t d ti de lo (s_status v) al ca tr ac doc
  | PRecurrence => mkZe e (zs_rec s)
  | PAllday => put t d ti de lo st (s_allday v) ca tr ac doc
  | PCategories => put t d ti de lo st al (s_categories v) tr ac doc
  | PTransparent => put t d ti de lo st al ca (s_transparent v) ac doc
  | PAccess => put t d ti de lo st al ca tr (s_access v) doc
  | PDocument => put t d ti de lo st al ca tr ac (s_document v)
  end.

(** the first loop of willModify, cal.py 110-113; [order] is the order of the dictionary *)
Fixpoint differs (order : list attr) (s : zspec) (e : zevent) : res bool :=
  match order with
  | [] => Ok false
  | a :: r => let* b := attr_eq a s e in if b then differs r s e else Ok true
  end.

(** willModify, cal.py 107-124 *)
Definition z_will_modify (order : list attr) (s : zspec) (z : zevent) : res bool :=
  let* b := differs order s z in
  if b then Ok true
  else
    let v := zs_spec s in let e := ze_event z in
    if match s_organizer v with Some i => negb (opt_str_eqb (e_organizer e) (Some i)) | None => false end then Ok true
    else
      let* st := get_status e (s_organizer v) in
      if negb (opt_str_eqb st (Some "ACCEPTED"%string)) then Ok true
      else
        let* ro := get_role e (s_organizer v) in
        if negb (opt_str_eqb ro (Some "REQ-PARTICIPANT"%string)) then Ok true
        else attendees_differ e (s_attendees v).

(** the first loop of setOnObject, cal.py 90-94 *)
Fixpoint set_each (order : list attr) (s : zspec) (e : zevent) : zevent * res unit :=
  match order with
  | [] => (e, Ok tt)
  | a :: r =>
      match attr_eq a s e with
      | Ok b => set_each r s (if b then e else attr_set a s e)
      | Raise x => (e, Raise x)
      | OutOfFuel => (e, OutOfFuel)
      end
  end.

(** the rest of setOnObject, cal.py 95-105 *)
Definition set_people (v : spec) (e : event) : mut :=
  mbind (match s_organizer v with
         | Some i =>
             mbind (mbind (set_status_raw e (Some i) (Some "ACCEPTED"%string)) (fun e1 => set_role e1 (Some i) "REQ-PARTICIPANT"))
                   (fun e2 => (with_organizer e2 (Some i), [], Ok tt))
         | None => (with_organizer e None, [], Ok tt)
         end) (fun e3 => set_attendees e3 (s_attendees v)).

(** setOnObject, cal.py 87-105 *)
Definition z_set_on_object (order : list attr) (s : zspec) (z : zevent) : zevent * res unit :=
  match set_each order s z with
  | (z1, Ok _) => let '(e, _, r) := set_people (zs_spec s) (ze_event z1) in (mkZe e (ze_rec z1), r)
  | m => m
  end.

(** _importExistingEvent once the specification is made, cal.py 739-741: the event, whether
    the change is announced, and the outcome *)
Definition z_import_existing (order : list attr) (s : zspec) (z : zevent) : zevent * bool * res unit :=
  match z_will_modify order s z with
  | Ok true => match z_set_on_object order s z with
               | (z1, Ok _) => (z1, true, Ok tt)
               | (z1, r) => (z1, false, r)
               end
  | Ok false => (z, false, Ok tt)
  | Raise x => (z, false, Raise x)
  | OutOfFuel => (z, false, OutOfFuel)
  end.

(** a value, a rule, an event, a specification of the rest of the model: no zones
    (recurrent.py 54-58; cal.py 62-86, 395-403) *)
Definition plain_val (v : dval) : zval := match v with VDate o => ZDate o | VDatetime t => ZNaive t | VOther => ZOther end.
(** recurrent.py 54-58 *)
Definition plain_rule (r : rule) : zrule :=
  mkZ (r_kind r) (r_interval r) (r_count r) (option_map plain_val (r_until r)) (map plain_val (r_exceptions r)) (r_weekdays r) (r_monthly r).
(** cal.py 395-403 *)
Definition plain_event (e : event) : zevent := mkZe e (option_map plain_rule (e_recurrence e)).
(** cal.py 62-86 *)
Definition plain_spec (s : spec) : zspec := mkZs s (option_map plain_rule (s_recurrence s)).
