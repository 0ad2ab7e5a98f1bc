(** Rule objects whose attributes were assigned after construction
    (src/calcore/recurrent.py 40-104, 205-251, 288-335).

    The constructors turn exceptions and weekdays into tuples, but the attributes
    can be assigned, and a list assigned stays a list.  Everywhere else in the model
    these attributes are sequences without a type; here the type is kept. *)
From Verif Require Import Base PyDate Recurrent.

(** a rule object: its values, and which of the two sequences is a list instead of
    a tuple; recurrent.py 54-58, 214-220, 299-305 *)
Record robj := mkRobj { o_rule : rule; o_exc_list : bool; o_wd_list : bool }.

(** __init__ of each class, recurrent.py 54-59, 214-221, 299-306: tuple(...) of whatever sequence is given *)
Definition construct (k : kind) (interval : Z) (count : option Z) (until : option dval)
           (exceptions : list dval) (weekdays : list Z) (monthly : string) : res robj :=
  let* r := mk_rule k interval count until exceptions weekdays monthly in Ok (mkRobj r false false).

(** replace, recurrent.py 74-84, 235-247, 319-331: calls the constructor *)
Definition replace_obj (o : robj) (interval : option Z) (count : option (option Z))
           (until : option (option dval)) (exceptions : option (list dval))
           (weekdays : option (list Z)) (monthly : option string) : res robj :=
  let* r := replace (o_rule o) interval count until exceptions weekdays monthly in Ok (mkRobj r false false).

(** assigning the public attributes, which checks nothing, recurrent.py 46-49, 210 *)
Inductive assignment :=
| AInterval (i : Z)
| ACount (c : option Z)
| AUntil (u : option dval)
| AExceptions (is_list : bool) (l : list dval)
| AWeekdays (is_list : bool) (l : list Z)
| AMonthly (m : string).

(** o.attribute = value, recurrent.py 46-49, 210 and cal.py 864-872.  Simplification:
    weekdays are assigned to weekly rules and monthly to monthly rules only; elsewhere
    nothing looks at them. *)
Definition assign (o : robj) (a : assignment) : robj :=
  let r := o_rule o in
  match a with
  | AInterval i => mkRobj (mkRule (r_kind r) i (r_count r) (r_until r) (r_exceptions r) (r_weekdays r) (r_monthly r)) (o_exc_list o) (o_wd_list o)
  | ACount c => mkRobj (mkRule (r_kind r) (r_interval r) c (r_until r) (r_exceptions r) (r_weekdays r) (r_monthly r)) (o_exc_list o) (o_wd_list o)
  | AUntil u => mkRobj (mkRule (r_kind r) (r_interval r) (r_count r) u (r_exceptions r) (r_weekdays r) (r_monthly r)) (o_exc_list o) (o_wd_list o)
  | AExceptions b l => mkRobj (mkRule (r_kind r) (r_interval r) (r_count r) (r_until r) l (r_weekdays r) (r_monthly r)) b (o_wd_list o)
  | AWeekdays b l =>
      match r_kind r with
      | KWeekly => mkRobj (mkRule (r_kind r) (r_interval r) (r_count r) (r_until r) (r_exceptions r) l (r_monthly r)) (o_exc_list o) b
      | _ => o
      end
  | AMonthly m =>
      match r_kind r with
      | KMonthly => mkRobj (mkRule (r_kind r) (r_interval r) (r_count r) (r_until r) (r_exceptions r) (r_weekdays r) m) (o_exc_list o) (o_wd_list o)
      | _ => o
      end
  end.

(** a tuple or a list, as it stands in the tuple compared at recurrent.py 98 *)
Definition sequence (A : Type) : Type := (bool * list A)%type.
(** [==]: a tuple never equals a list, recurrent.py 98 *)
Definition seq_eqb {A} (eqb : A -> A -> bool) (a b : sequence A) : bool :=
  Bool.eqb (fst a) (fst b) && list_eqb eqb (snd a) (snd b).

(** the sixth component, recurrent.py 251, 335 *)
Inductive oextra := ONone | OWeekdays (l : sequence Z) | OMonthly (m : string).
(** [==] on it, recurrent.py 98 *)
Definition oextra_eqb (a b : oextra) : bool :=
  match a, b with
  | ONone, ONone => true
  | OWeekdays x, OWeekdays y => seq_eqb Z.eqb x y
  | OMonthly x, OMonthly y => String.eqb x y
  | _, _ => false
  end.

(** the tuple compared at recurrent.py 98 *)
Definition otuple := (kind * Z * option Z * option dval * sequence dval * oextra)%type.
(** _tupleForComparison, recurrent.py 91-93 (where exceptions are turned into a tuple), 249-251, 333-335 (where they are not) *)
Definition compared (o : robj) : otuple :=
  let r := o_rule o in
  (r_kind r, r_interval r, r_count r, r_until r,
   (match r_kind r with KWeekly | KMonthly => o_exc_list o | _ => false end, r_exceptions r),
   match r_kind r with
   | KWeekly => OWeekdays (o_wd_list o, r_weekdays r)
   | KMonthly => OMonthly (r_monthly r)
   | _ => ONone
   end).

(** __eq__, recurrent.py 95-100, both being rules *)
Definition obj_eq (a b : robj) : bool :=
  let '(k1, i1, c1, u1, e1, x1) := compared a in
  let '(k2, i2, c2, u2, e2, x2) := compared b in
  kind_eqb k1 k2 && (i1 =? i2) && opt_eqb Z.eqb c1 c2 && opt_eqb dval_eqb u1 u2
  && seq_eqb dval_eqb e1 e2 && oextra_eqb x1 x2.

(** __hash__, recurrent.py 106-112: hash of that tuple, which raises if a component is
    a list.  [h] stands for Python's hash of tuples. *)
Definition obj_hash (h : otuple -> Z) (o : robj) : res Z :=
  let '(_, _, _, _, e, x) := compared o in
  if fst e then Raise TypeError
  else match x with
       | OWeekdays (true, _) => Raise TypeError
       | _ => Ok (h (compared o))
       end.

(** apply only asks for elements, recurrent.py 114-130, 253-275, 349-407 *)
Definition obj_apply (F : nat) (o : robj) (dtstart : Z) (enddate : option dval) : gen := apply F (o_rule o) dtstart enddate.
