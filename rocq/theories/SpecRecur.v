(** What the recurrence rules are supposed to mean, stated day by day and
    without any reference to the loops of Recurrent.v. *)
From Verif Require Import Base PyDate Recurrent.

(** all days from [a] to [b], both included, in order *)
Definition days (a b : Z) : list Z :=
  map (fun k => a + Z.of_nat k) (seq 0 (Z.to_nat (b - a + 1))).

(** months since year 0: consecutive months have consecutive numbers *)
Definition month_no (d : Z) : Z := 12 * year_of d + (month_of d - 1).

(** number of the Monday-to-Sunday week that contains the day *)
Definition week_no (d : Z) : Z := (d - weekday d - 1) / 7.

(** position of the day among the same weekdays of its month, from the front
    and from the back, counting from 0 *)
Definition nth_weekday (d : Z) : Z := (day_of d - 1) / 7.
Definition nth_last_weekday (d : Z) : Z :=
  (days_in_month (year_of d) (month_of d) - day_of d) / 7.

(** [every n a b]: [b] is a whole number of [n]-steps away from [a] *)
Definition every (n a b : Z) : bool := (b - a) mod n =? 0.

(** Does a rule of an event starting on day [s] designate day [d]? *)
Definition on_day (r : rule) (s d : Z) : bool :=
  let n := r_interval r in
  match r_kind r with
  | KNo => d =? s
  | KBasic | KDaily => every n s d
  | KYearly =>
      (day_of d =? day_of s) && (month_of d =? month_of s) && every n (year_of s) (year_of d)
  | KWeekly =>
      every n (week_no s) (week_no d)
      && ((weekday d =? weekday s) || z_in (weekday d) (r_weekdays r))
  | KMonthly =>
      every n (month_no s) (month_no d)
      && if String.eqb (r_monthly r) "monthday" then day_of d =? day_of s
         else if String.eqb (r_monthly r) "weekday" then
           (weekday d =? weekday s) && (nth_weekday d =? nth_weekday s)
         else (weekday d =? weekday s) && (nth_last_weekday d =? nth_last_weekday s)
  end.

(** What the code does with the fifth weekday of a month, which not every
    month has: the first such weekday of the month plus four weeks (and,
    symmetrically, the first such weekday of the next month minus five). *)
Definition on_day_spill (r : rule) (s d : Z) : bool :=
  let n := r_interval r in
  if String.eqb (r_monthly r) "weekday" then
    let d0 := d - 7 * nth_weekday s in
    (weekday d =? weekday s) && (1 <=? d0) && (day_of d0 <=? 7)
    && every n (month_no s) (month_no d0)
  else
    let d0 := d + 7 * (nth_last_weekday s + 1) in
    (weekday d =? weekday s) && (day_of d0 <=? 7)
    && every n (month_no s) (month_no d0 - 1).

(** In what follows [on s d] is a day predicate as above; [r] supplies count,
    until and exceptions. *)

(** how many designated days from [s] on precede [d] *)
Definition rank (on : Z -> Z -> bool) (s d : Z) : Z :=
  Z.of_nat (List.length (filter (on s) (days s (d - 1)))).

Definition in_count (on : Z -> Z -> bool) (r : rule) (s d : Z) : bool :=
  match r_count r with None => true | Some c => rank on s d <? c end.
Definition in_until (r : rule) (d : Z) : bool :=
  match r_until r with None => true | Some (VDate u) => d <=? u | Some _ => false end.
Definition is_exception (r : rule) (d : Z) : bool :=
  existsb (fun v => match v with VDate x => x =? d | _ => false end) (r_exceptions r).
Definition in_enddate (ed : option Z) (d : Z) : bool :=
  match ed with None => true | Some e => d <=? e end.

(** [d] is one of the dates the rule stands for *)
Definition selected (on : Z -> Z -> bool) (r : rule) (s d : Z) : bool :=
  on s d && in_count on r s d && in_until r d && negb (is_exception r d).

(** the dates up to day [b], in order *)
Definition expected (on : Z -> Z -> bool) (r : rule) (s b : Z) : list Z :=
  filter (selected on r s) (days s b).

(** nothing from [d] on may be produced: the caller's end date, the count or
    the until date has been passed *)
Definition over (on : Z -> Z -> bool) (r : rule) (ed : option Z) (s d : Z) : bool :=
  negb (in_enddate ed d && in_count on r s d && in_until r d).

(** the until date is a plain date (what the rule documentation asks for) *)
Definition until_is_date (r : rule) : Prop :=
  match r_until r with None => True | Some (VDate _) => True | Some _ => False end.

(** "applying the rule yields [out] and then finishes normally", for any
    sufficient amount of fuel *)
Definition yields (r : rule) (dtstart : Z) (ed : option Z) (out : list Z) : Prop :=
  exists N, forall F, (N <= F)%nat ->
    apply F r dtstart (option_map VDate ed) = (out, GStop).

(** [d] is eventually generated when no end date is given *)
Definition generates (r : rule) (dtstart d : Z) : Prop :=
  exists F, In d (fst (apply F r dtstart None)).

(** The day predicate realised by the code: the documented one, except that the
    two weekday modes spill over into a neighbouring month when the month has
    no fifth such weekday. *)
Definition code_on (r : rule) (s d : Z) : bool :=
  match r_kind r with
  | KMonthly => if String.eqb (r_monthly r) "monthday" then on_day r s d else on_day_spill r s d
  | _ => on_day r s d
  end.

(** the rules the constructors accept *)
Definition valid_rule (r : rule) : Prop := validate r = Ok tt.
