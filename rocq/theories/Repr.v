(** Model of the printed form of recurrence rules (src/calcore/recurrent.py 86-89,
    223-226, 308-311) and of the vocabularies offered to forms (src/calcore/cal.py
    1164-1183). *)
From Verif Require Import Base PyDate Recurrent CalTime Event Storage ICal System RuleText.

(** [self.__class__.__name__], recurrent.py 40, 170, 181, 188, 205, 288 *)
Definition class_name (k : kind) : string :=
  match k with
  | KBasic => "BasicRecurrenceRule"
  | KNo => "NoRecurrenceRule"
  | KDaily => "DailyRecurrenceRule"
  | KYearly => "YearlyRecurrenceRule"
  | KWeekly => "WeeklyRecurrenceRule"
  | KMonthly => "MonthlyRecurrenceRule"
  end%string.

(** [%r] of a date or a datetime, recurrent.py 87, 224, 309.  The text of the
    standard library: trailing zero seconds and microseconds are left out.
    Simplification: other objects print as nothing. *)
Definition repr_dval (v : dval) : string :=
  match v with
  | VDate o => "datetime.date(" ++ fmt_d (year_of o) ++ ", " ++ fmt_d (month_of o) ++ ", " ++ fmt_d (day_of o) ++ ")"
  | VDatetime t =>
      let o := dt_date t in
      let sec := tod_second (dt_time t) in
      let us := Z.modulo (dt_time t) SECOND in
      "datetime.datetime(" ++ fmt_d (year_of o) ++ ", " ++ fmt_d (month_of o) ++ ", " ++ fmt_d (day_of o) ++ ", "
        ++ fmt_d (tod_hour (dt_time t)) ++ ", " ++ fmt_d (tod_minute (dt_time t))
        ++ (if Z.eqb us 0 then if Z.eqb sec 0 then "" else ", " ++ fmt_d sec else ", " ++ fmt_d sec ++ ", " ++ fmt_d us)
        ++ ")"
  | VOther => ""
  end%string.

(** [%r] of a value that may be None, recurrent.py 87-88 *)
Definition repr_opt {A} (f : A -> string) (o : option A) : string :=
  match o with Some x => f x | None => "None"%string end.

(** [%r] of a tuple, recurrent.py 89, 226 *)
Definition repr_tuple {A} (f : A -> string) (l : list A) : string :=
  match l with
  | [x] => "(" ++ f x ++ ",)"
  | _ => "(" ++ join ", " (map f l) ++ ")"
  end%string.

(** __repr__, recurrent.py 86-89, 223-226, 308-311.  Simplifications: integers
    have no suffix L; a string contains no character that Python would escape. *)
Definition rule_repr (r : rule) : string :=
  (class_name (r_kind r) ++ "(" ++ fmt_d (r_interval r) ++ ", " ++ repr_opt fmt_d (r_count r) ++ ", "
   ++ repr_opt repr_dval (r_until r) ++ ", " ++ repr_tuple repr_dval (r_exceptions r)
   ++ match r_kind r with
      | KWeekly => ", " ++ repr_tuple fmt_d (r_weekdays r)
      | KMonthly => ", '" ++ r_monthly r ++ "'"
      | _ => ""
      end ++ ")")%string.

(** * Vocabularies *)
(** a SimpleTerm: value and token, cal.py 1167 and 1182.  Titles are not modelled. *)
Definition term (A : Type) : Type := (A * string)%type.

(** SimpleVocabulary (zope.schema), called at cal.py 1168 and 1183: refuses equal
    values and equal tokens *)
Fixpoint simple_vocabulary {A} (eqb : A -> A -> bool) (l : list (term A)) : res (list (term A)) :=
  match l with
  | [] => Ok []
  | (v, t) :: r =>
      let* r' := simple_vocabulary eqb r in
      if existsb (fun x => eqb v (fst x) || String.eqb t (snd x)) r' then Raise ValueError else Ok ((v, t) :: r')
  end.

(** CalendarVocabularyFactory, cal.py 1164-1168 *)
Definition vocabulary_factory (l : list string) : res (list (term string)) :=
  simple_vocabulary String.eqb (map (fun x => (x, x)) l).

(** cal.py 1170-1171 *)
Definition status_vocabulary : res (list (term string)) := vocabulary_factory ["TENTATIVE"; "CONFIRMED"; "CANCELED"]%string.
(** cal.py 1173-1174 *)
Definition access_vocabulary : res (list (term string)) := vocabulary_factory ["PUBLIC"; "PRIVATE"; "CONFIDENTIAL"]%string.
(** cal.py 1176-1177 *)
Definition monthly_vocabulary : res (list (term string)) := vocabulary_factory ["monthday"; "weekday"; "lastweekday"]%string.
(** CalendarWeekdaysVocabulary, cal.py 1179-1183.  A token is the text of the
    value. *)
Definition weekdays_vocabulary : res (list (term Z)) :=
  simple_vocabulary Z.eqb (map (fun d => (Z.of_nat d, fmt_d (Z.of_nat d))) (seq 0 7)).
