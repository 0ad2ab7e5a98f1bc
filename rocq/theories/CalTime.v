(** Model of the time helpers of src/calcore/cal.py: periods, day segmentation
    and rounding. *)
From Verif Require Import Base PyDate.

(** Period, cal.py 1072-1073: a pair of a datetime and a timedelta given in minutes *)
Definition Period (dtstart minutes : Z) : Z * Z := (dtstart, minutes * MINUTE).

(** A period handed to queries: a pair of datetimes, [None] = unbounded. See cal.py 287-297, 1075-1088. *)
Definition period := (option Z * option Z)%type.

(** [dtstart + duration]; the duration may be None (EventSpecification takes any
    value), in which case Python raises TypeError. See cal.py 192, 531, 1084, 1136. *)
Definition end_of (dtstart : Z) (duration : option Z) : res Z :=
  match duration with
  | Some d => dt_add dtstart d
  | None => Raise TypeError
  end.

(** inPeriod, cal.py 1075-1088 *)
Definition in_period (dtstart : Z) (duration : option Z) (p : period) : res bool :=
  let '(b, e) := p in
  let second := match e with Some e' => Ok (negb (e' <=? dtstart)) | None => Ok true end in
  match b with
  | Some b' =>
      let* y := end_of dtstart duration in
      if y <=? b' then Ok false else second
  | None => second
  end.

(** sameDay, cal.py 1090-1091 *)
Definition same_day (a b : Z) : bool := dt_date a =? dt_date b.

(** roundtimedelta, cal.py 1093-1099; [seconds > 0 or microseconds > 0] is
    "the normalised remainder is positive".  The limit of [timedelta] is not
    modelled. *)
Definition roundtimedelta (td : Z) : Z :=
  if 0 <? td_rest td then (td_days td + 1) * DAY else td.

(** assertPeriodBounded, cal.py 1109-1111 *)
Definition assert_bounded (p : period) : res (Z * Z) :=
  match p with
  | (Some b, Some e) => Ok (b, e)
  | _ => Raise AssertionError
  end.

(** Occurrence, cal.py 589-595; [A] is the type of the original event *)
Record occurrence (A : Type) := mkOcc {
  o_dtstart : Z;
  o_duration : option Z;
  o_original : A }.
Arguments mkOcc {A}.
Arguments o_dtstart {A}.
Arguments o_duration {A}.
Arguments o_original {A}.

(** midnight after [x]: [combine(x.date(), time(0, 0)) + timedelta(1)], cal.py 1140 *)
Definition next_midnight (x : Z) : res Z := dt_add (combine (dt_date x) 0) DAY.

(** the [while 1] loop collecting day borders, cal.py 1138-1143 *)
Fixpoint day_borders (fuel : nat) (x y end_ : Z) : res (list Z) :=
  match fuel with
  | O => OutOfFuel
  | S f =>
      let* x' := next_midnight x in
      if (end_ <? x') || (y <? x') then Ok []
      else let* r := day_borders f x' y end_ in Ok (x' :: r)
  end.

(** The loop runs at most once per day up to [end_]. Bound for the loop of cal.py 1139-1143. *)
Definition border_fuel (x end_ : Z) : nat := S (S (Z.to_nat ((end_ - x) / DAY))).

(** the inner [while borders] loop, cal.py 1156-1161, over the reversed list *)
Fixpoint emit_segments {A} (orig : A) (p : period) (e : Z) (rborders : list Z)
  : res (list (occurrence A)) :=
  match rborders with
  | [] => Ok []
  | s :: r =>
      let occ := mkOcc s (Some (e - s)) orig in
      let* b := in_period s (Some (e - s)) p in
      let* rest := emit_segments orig p s r in
      Ok (if b then occ :: rest else rest)
  end.

(** body of the [for occ in occurrences] loop of segmentOccurrences, cal.py 1133-1161 *)
Definition segment_one {A} (start end_ : Z) (occ : occurrence A) : res (list (occurrence A)) :=
  let x := if o_dtstart occ <? start then start else o_dtstart occ in
  let* y := end_of (o_dtstart occ) (o_duration occ) in
  let* borders := day_borders (border_fuel x end_) x y end_ in
  let borders :=
    if o_dtstart occ <? start then start :: borders
    else match borders with
         | [] => o_dtstart occ :: borders
         | b0 :: _ => if o_dtstart occ =? b0 then borders else o_dtstart occ :: borders
         end in
  let last := if end_ <? y then end_ else y in
  emit_segments (o_original occ) (Some start, Some end_) last (rev borders).

(** segmentOccurrences, cal.py 1123-1162 *)
Definition segment_occurrences {A} (p : Z * Z) (occs : list (occurrence A))
  : res (list (occurrence A)) :=
  rconcat_map (segment_one (fst p) (snd p)) occs.

(** float_datetime, cal.py 1101-1107.  [None] offset: a naive datetime.  The local
    timezone is a parameter: it maps a UTC instant to its UTC offset. *)
Definition float_datetime (local : Z -> Z) (t : Z) (tz : option Z) : res Z :=
  match tz with
  | None => Ok t
  | Some off => let* utc := dt_add t (- off) in dt_add utc (local utc)
  end.
