(** Model of src/calcore/recurrent.py. *)
From Verif Require Import Base PyDate.

(** Values found where the code expects a [datetime.date].  A [datetime] is an
    instance of [date] (subclass) but never equals a plain date, and ordering it
    against a plain date raises TypeError; anything else also raises TypeError.
    Simplification: all datetimes here are without a time zone, or all are in UTC (Aware.v mixes them). Until and exceptions at recurrent.py 57-58, 68-69, 123-127. *)
Inductive dval :=
| VDate (o : Z)
| VDatetime (t : Z)
| VOther.

(** The rule classes: recurrent.py 40, 170, 181, 188, 205, 288. *)
Inductive kind := KBasic | KNo | KDaily | KYearly | KWeekly | KMonthly.

(** Attributes of a rule object.  [r_weekdays] is meaningful for KWeekly only,
    [r_monthly] for KMonthly only.  Simplification: interval and count are
    integers, weekdays are a list of integers. See recurrent.py 54-58, 214-220, 299-305. *)
Record rule := mkRule {
  r_kind : kind;
  r_interval : Z;
  r_count : option Z;
  r_until : option dval;
  r_exceptions : list dval;
  r_weekdays : list Z;
  r_monthly : string }.

(** [==] on class names, recurrent.py 92 and 98 *)
Definition kind_eqb (a b : kind) : bool :=
  match a, b with
  | KBasic, KBasic | KNo, KNo | KDaily, KDaily | KYearly, KYearly
  | KWeekly, KWeekly | KMonthly, KMonthly => true
  | _, _ => false
  end.

(** [==] on dates and datetimes, recurrent.py 98 and 127 *)
Definition dval_eqb (a b : dval) : bool :=
  match a, b with
  | VDate x, VDate y => x =? y
  | VDatetime x, VDatetime y => x =? y
  | VOther, VOther => true
  | _, _ => false
  end.

(** [isinstance(ex, datetime.date)], recurrent.py 69 *)
Definition is_date_instance (v : dval) : bool :=
  match v with VDate _ | VDatetime _ => true | VOther => false end.

(** BasicRecurrenceRule._validate, recurrent.py 61-72 *)
Definition basic_validate (r : rule) : res unit :=
  match r_count r, r_until r with
  | Some _, Some _ => Raise ValueError
  | _, _ =>
      if negb (1 <=? r_interval r) then Raise ValueError
      else if forallb is_date_instance (r_exceptions r) then Ok tt
      else Raise ValueError
  end.

(** _validate of each class: recurrent.py 61-72, 228-233, 313-317 *)
Definition validate (r : rule) : res unit :=
  match r_kind r with
  | KWeekly =>
      let* _ := basic_validate r in
      if forallb (fun d => (0 <=? d) && (d <=? 6)) (r_weekdays r) then Ok tt
      else Raise ValueError
  | KMonthly =>
      let* _ := basic_validate r in
      if str_in (r_monthly r) ["monthday"; "weekday"; "lastweekday"]%string then Ok tt
      else Raise ValueError
  | _ => basic_validate r
  end.

(** __init__ of each class: recurrent.py 54-59, 214-221, 299-306.
    The [weekdays]/[monthly] arguments exist for Weekly/Monthly only; other
    kinds get the inert defaults. *)
Definition mk_rule (k : kind) (interval : Z) (count : option Z) (until : option dval)
           (exceptions : list dval) (weekdays : list Z) (monthly : string) : res rule :=
  let r := mkRule k interval count until exceptions
                  (match k with KWeekly => weekdays | _ => [] end)
                  (match k with KMonthly => monthly | _ => "monthday"%string end) in
  let* _ := validate r in Ok r.

(** replace: recurrent.py 74-84, 235-247, 319-331.  [None] stands for the
    [Unchanged] marker. *)
Definition replace (r : rule) (interval : option Z) (count : option (option Z))
           (until : option (option dval)) (exceptions : option (list dval))
           (weekdays : option (list Z)) (monthly : option string) : res rule :=
  let pick {A} (o : option A) (d : A) := match o with Some x => x | None => d end in
  mk_rule (r_kind r) (pick interval (r_interval r)) (pick count (r_count r))
          (pick until (r_until r)) (pick exceptions (r_exceptions r))
          (pick weekdays (r_weekdays r)) (pick monthly (r_monthly r)).

(** _tupleForComparison: recurrent.py 91-93, 249-251, 333-335.  The class name
    is represented by the kind; the last component is the extra element of the
    6-tuples of Weekly and Monthly. *)
Inductive extra := XNone | XWeekdays (l : list Z) | XMonthly (m : string).

(** the tuple compared at recurrent.py 98 *)
Definition rtuple := (kind * Z * option Z * option dval * list dval * extra)%type.

(** _tupleForComparison, recurrent.py 91-93, 249-251, 333-335 *)
Definition tuple_for_comparison (r : rule) : rtuple :=
  (r_kind r, r_interval r, r_count r, r_until r, r_exceptions r,
   match r_kind r with
   | KWeekly => XWeekdays (r_weekdays r)
   | KMonthly => XMonthly (r_monthly r)
   | _ => XNone
   end).

(** [==] on tuples, recurrent.py 98 *)
Fixpoint list_eqb {A} (eqb : A -> A -> bool) (l1 l2 : list A) : bool :=
  match l1, l2 with
  | [], [] => true
  | x :: xs, y :: ys => eqb x y && list_eqb eqb xs ys
  | _, _ => false
  end.

(** [==] on values or None, recurrent.py 98 *)
Definition opt_eqb {A} (eqb : A -> A -> bool) (a b : option A) : bool :=
  match a, b with
  | Some x, Some y => eqb x y
  | None, None => true
  | _, _ => false
  end.

(** [==] on the sixth component, recurrent.py 98 *)
Definition extra_eqb (a b : extra) : bool :=
  match a, b with
  | XNone, XNone => true
  | XWeekdays x, XWeekdays y => list_eqb Z.eqb x y
  | XMonthly x, XMonthly y => String.eqb x y
  | _, _ => false
  end.

(** [==] on the whole tuples, recurrent.py 98 *)
Definition rtuple_eqb (a b : rtuple) : bool :=
  let '(k1, i1, c1, u1, e1, x1) := a in
  let '(k2, i2, c2, u2, e2, x2) := b in
  kind_eqb k1 k2 && (i1 =? i2) && opt_eqb Z.eqb c1 c2 && opt_eqb dval_eqb u1 u2
  && list_eqb dval_eqb e1 e2 && extra_eqb x1 x2.

(** __eq__ / __ne__: recurrent.py 95-104 (both operands are rules) *)
Definition rule_eq (a b : rule) : bool :=
  rtuple_eqb (tuple_for_comparison a) (tuple_for_comparison b).
(** __ne__, recurrent.py 102-104 *)
Definition rule_ne (a b : rule) : bool := negb (rule_eq a b).

(** How a generator ended. The generators of recurrent.py 114-130, 174-176, 253-275, 349-407: exhausted, ended by an exception, or not yet ended. *)
Inductive fin := GStop | GRaise (e : exn) | GMore.
(** what a generator (recurrent.py 114-130, 174-176, 253-275, 349-407) has yielded, and how it ended *)
Definition gen := (list Z * fin)%type.

(** The break condition shared by all loops: recurrent.py 123-126, 264-267,
    375-378, 398-401. *)
Definition stop_check (enddate : option Z) (r : rule) (cur count : Z) : res bool :=
  if match enddate with Some e => e <? cur | None => false end then Ok true
  else if match r_count r with Some c => c <=? count | None => false end then Ok true
  else match r_until r with
       | None => Ok false
       | Some (VDate u) => Ok (u <? cur)
       | Some _ => Raise TypeError
       end.

(** [cur in self.exceptions]: equality with a plain date, recurrent.py 127, 272, 379, 402 *)
Definition excepted (r : rule) (cur : Z) : bool :=
  existsb (dval_eqb (VDate cur)) (r_exceptions r).

(** BasicRecurrenceRule.apply main loop, recurrent.py 120-130; [next] is
    self._nextRecurrence. *)
Fixpoint basic_loop (fuel : nat) (next : Z -> res Z) (r : rule) (enddate : option Z)
         (cur count : Z) : gen :=
  match fuel with
  | O => ([], GMore)
  | S f =>
      match stop_check enddate r cur count with
      | Raise e => ([], GRaise e)
      | OutOfFuel => ([], GMore)
      | Ok true => ([], GStop)
      | Ok false =>
          let out := if excepted r cur then [] else [cur] in
          match next cur with
          | Ok cur' =>
              let (l, e) := basic_loop f next r enddate cur' (count + 1) in (out ++ l, e)
          | Raise e => (out, GRaise e)
          | OutOfFuel => (out, GMore)
          end
      end
  end.

(** BasicRecurrenceRule._nextRecurrence, recurrent.py 132-134 *)
Definition basic_next (r : rule) (d : Z) : res Z := date_add d (r_interval r).

(** YearlyRecurrenceRule._nextRecurrence, recurrent.py 194-197 *)
Definition yearly_next (r : rule) (d : Z) : res Z :=
  date_replace d (year_of d + r_interval r) (month_of d).

(** MonthlyRecurrenceRule._nextRecurrence, recurrent.py 337-347: step by
    [interval] months until [replace] does not raise ValueError. *)
Fixpoint monthly_next_loop (fuel : nat) (interval d y m : Z) : res Z :=
  match fuel with
  | O => OutOfFuel
  | S f =>
      let t := y * 12 + m - 1 + interval in
      let y' := t / 12 in
      let m' := t mod 12 + 1 in
      match date_replace d y' m' with
      | Raise ValueError => monthly_next_loop f interval d y' m'
      | x => x
      end
  end.

(** MonthlyRecurrenceRule._nextRecurrence, recurrent.py 337-347 *)
Definition monthly_next (fuel : nat) (r : rule) (d : Z) : res Z :=
  monthly_next_loop fuel (r_interval r) d (year_of d) (month_of d).

(** weekspan, recurrent.py 427-435 *)
Definition weekspan (first second : Z) : res Z :=
  let* m1 := date_add first (- weekday first) in
  let* m2 := date_add second (- weekday second) in
  Ok ((m2 - m1) / 7).

(** WeeklyRecurrenceRule.apply main loop, recurrent.py 263-279 *)
Fixpoint weekly_loop (fuel : nat) (r : rule) (wds : list Z) (enddate : option Z)
         (start cur count : Z) : gen :=
  match fuel with
  | O => ([], GMore)
  | S f =>
      match stop_check enddate r cur count with
      | Raise e => ([], GRaise e)
      | OutOfFuel => ([], GMore)
      | Ok true => ([], GStop)
      | Ok false =>
          match weekspan start cur with
          | Raise e => ([], GRaise e)
          | OutOfFuel => ([], GMore)
          | Ok ws =>
              if r_interval r =? 0 then ([], GRaise ZeroDivisionError)
              else
                let hit := (ws mod r_interval r =? 0) && z_in (weekday cur) wds in
                let out := if hit && negb (excepted r cur) then [cur] else [] in
                let count' := if hit then count + 1 else count in
                match date_add cur 1 with
                | Ok cur' =>
                    let (l, e) := weekly_loop f r wds enddate start cur' count' in (out ++ l, e)
                | Raise e => (out, GRaise e)
                | OutOfFuel => (out, GMore)
                end
          end
      end
  end.

(** the [for day in range(1, 8)] search of monthindex, recurrent.py 453-455;
    Python leaves [day] at 7 when nothing matches. *)
Fixpoint find_first_day (n : nat) (y m wd day : Z) : res Z :=
  match n with
  | O => Ok (day - 1)
  | S n' =>
      let* o := py_date y m day in
      if weekday o =? wd then Ok day else find_first_day n' y m wd (day + 1)
  end.

(** monthindex, recurrent.py 438-461 *)
Definition monthindex (y m index wd : Z) : res Z :=
  let '(y, m, index) :=
    if index <? 0 then (y + m / 12, m mod 12 + 1, index + 1) else (y, m, index) in
  let* day := find_first_day 7 y m wd 1 in
  let* o := py_date y m day in
  date_add o ((index - 1) * 7).

(** The loop shared by _applyWeekday and _applyLastWeekday,
    recurrent.py 373-384 and 396-407 (identical bodies). *)
Fixpoint index_loop (fuel : nat) (r : rule) (enddate : option Z) (wd index : Z)
         (y m count : Z) : gen :=
  match fuel with
  | O => ([], GMore)
  | S f =>
      match monthindex y m index wd with
      | Raise e => ([], GRaise e)
      | OutOfFuel => ([], GMore)
      | Ok cur =>
          match stop_check enddate r cur count with
          | Raise e => ([], GRaise e)
          | OutOfFuel => ([], GMore)
          | Ok true => ([], GStop)
          | Ok false =>
              let out := if excepted r cur then [] else [cur] in
              let t := y * 12 + m + r_interval r - 1 in
              let (l, e) := index_loop f r enddate wd index (t / 12) (t mod 12 + 1) (count + 1) in
              (out ++ l, e)
          end
      end
  end.

(** _applyWeekday, recurrent.py 364-384 (Python 2 integer division) *)
Definition apply_weekday (fuel : nat) (r : rule) (start : Z) (enddate : option Z) : gen :=
  index_loop fuel r enddate (weekday start) ((day_of start - 1) / 7 + 1)
             (year_of start) (month_of start) 0.

(** _applyLastWeekday, recurrent.py 386-407 *)
Definition apply_lastweekday (fuel : nat) (r : rule) (start : Z) (enddate : option Z) : gen :=
  let dim := days_in_month (year_of start) (month_of start) in
  index_loop fuel r enddate (weekday start) ((day_of start - dim - 1) / 7)
             (year_of start) (month_of start) 0.

(** apply of each class: recurrent.py 114-130, 174-176, 253-275, 349-362.
    [dtstart] is event.dtstart; the result lists the dates yielded within the
    fuel.  The inner loop of monthly 'monthday' stepping gets the same fuel.
    The assertions on [enddate] (116-119) reject datetimes. *)
Definition apply (fuel : nat) (r : rule) (dtstart : Z) (enddate : option dval) : gen :=
  let start := dt_date dtstart in
  match r_kind r with
  | KNo => ([start], GStop)
  | _ =>
      match (match enddate with
             | None => Ok None
             | Some (VDate e) => Ok (Some e)
             | Some _ => Raise AssertionError
             end) with
      | Raise e => ([], GRaise e)
      | OutOfFuel => ([], GMore)
      | Ok ed =>
          match r_kind r with
          | KBasic | KDaily => basic_loop fuel (basic_next r) r ed start 0
          | KYearly => basic_loop fuel (yearly_next r) r ed start 0
          | KWeekly =>
              weekly_loop fuel r (weekday start :: r_weekdays r) ed start start 0
          | KMonthly =>
              if String.eqb (r_monthly r) "monthday" then
                basic_loop fuel (monthly_next fuel r) r ed start 0
              else if String.eqb (r_monthly r) "weekday" then
                apply_weekday fuel r start ed
              else if String.eqb (r_monthly r) "lastweekday" then
                apply_lastweekday fuel r start ed
              else ([], GStop)
          | KNo => ([start], GStop)
          end
      end
  end.
