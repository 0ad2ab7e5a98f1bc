(** Property theorems C01-C14 about recurrence rules. *)
From Verif Require Import Base PyDate DateFacts Recurrent SpecRecur RecurProofs RecurExact RecurMain RecurOrder RecurSound RecurMisc.
From Coq Require Import Sorting.Sorted.

(** 2024-01-31 10:00, 2024-02-29 10:00, 2024-01-29 10:00, 2024-01-01 10:00 *)
Definition jan31 : Z := ymd2ord 2024 1 31 * DAY + 10 * HOUR.
Definition feb29 : Z := ymd2ord 2024 2 29 * DAY + 10 * HOUR.
Definition jan29 : Z := ymd2ord 2024 1 29 * DAY + 10 * HOUR.
Definition jan01 : Z := ymd2ord 2024 1 1 * DAY + 10 * HOUR.
(** closes ground goals by computation *)
Ltac ground :=
  intros; repeat match goal with |- _ /\ _ => split end;
  vm_compute; first [ reflexivity | exact I | discriminate | tauto | intuition congruence ].
Definition ymds (l : list Z) := map ord2ymd l.

(** * C01 daily *)
Theorem C01_daily_exact : forall r dt e,
  (r_kind r = KDaily \/ r_kind r = KBasic) -> 1 <= r_interval r -> until_is_date r ->
  1 <= dt_date dt <= MAXORD -> e + r_interval r <= MAXORD ->
  yields r dt (Some e) (expected (on_day r) r (dt_date dt) e).
Proof. exact daily_enddate. Qed.

(** without an end date: the rule's own count or until stops the iteration *)
Theorem C01_daily_exact_unbounded : forall r dt stop,
  (r_kind r = KDaily \/ r_kind r = KBasic) -> 1 <= r_interval r -> until_is_date r ->
  1 <= dt_date dt -> dt_date dt <= stop <= MAXORD ->
  on_day r (dt_date dt) stop = true -> over (on_day r) r None (dt_date dt) stop = true ->
  yields r dt None (expected (on_day r) r (dt_date dt) stop).
Proof.
  exact (fun r dt stop H1 H2 H3 H4 H5 H6 H7 =>
    eq_ind _ (fun l => yields r dt None l) (daily_stop r dt None stop H1 H2 H3 H4 H5 H6 H7) _ (sel_list_none _ _ _ _)).
Qed.

Example C01_case :
  let r := mkRule KDaily 2 (Some 4) None [VDate (ymd2ord 2024 2 2)] [] "monthday"%string in
  (1 <= r_interval r /\ until_is_date r /\ 1 <= dt_date jan31 <= MAXORD
   /\ ymd2ord 2024 2 28 + r_interval r <= MAXORD)
  /\ ymds (expected (on_day r) r (dt_date jan31) (ymd2ord 2024 2 28))
     = [(2024, 1, 31); (2024, 2, 4); (2024, 2, 6)]
  /\ over (on_day r) r None (dt_date jan31) (ymd2ord 2024 2 8) = true.
Proof. ground. Qed.

(** * C02 weekly *)
Theorem C02_weekly_exact : forall r dt e,
  r_kind r = KWeekly -> 1 <= r_interval r -> until_is_date r ->
  1 <= dt_date dt <= MAXORD -> e < MAXORD ->
  yields r dt (Some e) (expected (on_day r) r (dt_date dt) e).
Proof. exact weekly_enddate. Qed.

Theorem C02_weekly_exact_unbounded : forall r dt stop,
  r_kind r = KWeekly -> 1 <= r_interval r -> until_is_date r ->
  1 <= dt_date dt -> dt_date dt <= stop <= MAXORD ->
  over (on_day r) r None (dt_date dt) stop = true ->
  yields r dt None (expected (on_day r) r (dt_date dt) stop).
Proof.
  exact (fun r dt stop H1 H2 H3 H4 H5 H6 =>
    eq_ind _ (fun l => yields r dt None l) (weekly_stop r dt None stop H1 H2 H3 H4 H5 H6) _ (sel_list_none _ _ _ _)).
Qed.

Example C02_case :
  let r := mkRule KWeekly 2 None (Some (VDate (ymd2ord 2024 2 16))) [] [0; 4] "monthday"%string in
  (1 <= r_interval r /\ until_is_date r /\ 1 <= dt_date jan31 <= MAXORD)
  /\ ymds (expected (on_day r) r (dt_date jan31) (ymd2ord 2024 8 5))
     = [(2024, 1, 31); (2024, 2, 2); (2024, 2, 12); (2024, 2, 14); (2024, 2, 16)].
Proof. ground. Qed.

(** * C03 monthly, same day of month *)
Theorem C03_monthday_exact : forall r dt e,
  r_kind r = KMonthly -> r_monthly r = "monthday"%string -> 1 <= r_interval r -> until_is_date r ->
  1 <= dt_date dt <= MAXORD ->
  (dt_date dt <= e -> exists d, e < d <= MAXORD /\ on_day r (dt_date dt) d = true) ->
  yields r dt (Some e) (expected (on_day r) r (dt_date dt) e).
Proof. exact monthday_enddate_gen. Qed.

Theorem C03_monthday_exact_unbounded : forall r dt stop,
  r_kind r = KMonthly -> r_monthly r = "monthday"%string -> 1 <= r_interval r -> until_is_date r ->
  1 <= dt_date dt -> dt_date dt <= stop <= MAXORD ->
  on_day r (dt_date dt) stop = true -> over (on_day r) r None (dt_date dt) stop = true ->
  yields r dt None (expected (on_day r) r (dt_date dt) stop).
Proof.
  exact (fun r dt stop H1 H2 H3 H4 H5 H6 H7 H8 =>
    eq_ind _ (fun l => yields r dt None l) (monthday_stop r dt None stop H1 H2 H3 H4 H5 H6 H7 H8) _ (sel_list_none _ _ _ _)).
Qed.

(** the later repetition exists in particular whenever the end date is not within
    [interval] years of the end of the calendar ([16 * interval] for a leap day) *)
Theorem C03_monthday_exact_years : forall r dt e,
  r_kind r = KMonthly -> r_monthly r = "monthday"%string -> 1 <= r_interval r -> until_is_date r ->
  1 <= dt_date dt <= MAXORD ->
  year_of e + (if (month_of (dt_date dt) =? 2) && (day_of (dt_date dt) =? 29)
               then 16 * r_interval r else r_interval r) <= MAXYEAR ->
  yields r dt (Some e) (expected (on_day r) r (dt_date dt) e).
Proof. exact monthday_enddate. Qed.

Example C03_case :
  let r := mkRule KMonthly 1 (Some 4) None [] [] "monthday"%string in
  (1 <= r_interval r /\ until_is_date r /\ 1 <= dt_date jan31 <= MAXORD
   /\ on_day r (dt_date jan31) (ymd2ord 2025 1 31) = true)
  /\ ymds (expected (on_day r) r (dt_date jan31) (ymd2ord 2024 5 31))
     = [(2024, 1, 31); (2024, 3, 31); (2024, 5, 31)].
Proof. ground. Qed.

(** * C04 monthly, n-th weekday *)
Theorem C04_weekday_exact_partial : forall r dt e,
  r_kind r = KMonthly -> r_monthly r = "weekday"%string -> 1 <= r_interval r -> until_is_date r ->
  1 <= dt_date dt <= MAXORD -> mi e + r_interval r + 1 <= 12 * 9999 + 11 ->
  day_of (dt_date dt) <= 28 ->
  yields r dt (Some e) (expected (on_day r) r (dt_date dt) e).
Proof.
  exact (fun r dt e H1 H2 H3 H4 H5 H6 H7 =>
    eq_ind_r (fun l => yields r dt (Some e) l) (weekday_spill_enddate r dt e H1 H2 H3 H4 H5 H6)
      (expected_ext (on_day r) (on_day_spill r) r (dt_date dt) e
         (fun x Hx => on_day_weekday_natural r (dt_date dt) x H1 H2 (proj1 H5) Hx H7))).
Qed.

(** every start, with the fifth weekday read as "first such weekday of the month plus four weeks" *)
Theorem C04_weekday_spill_exact : forall r dt e,
  r_kind r = KMonthly -> r_monthly r = "weekday"%string -> 1 <= r_interval r -> until_is_date r ->
  1 <= dt_date dt <= MAXORD -> mi e + r_interval r + 1 <= 12 * 9999 + 11 ->
  yields r dt (Some e) (expected (on_day_spill r) r (dt_date dt) e).
Proof. exact weekday_spill_enddate. Qed.

Theorem C04_weekday_spill_exact_unbounded : forall r dt stop,
  r_kind r = KMonthly -> r_monthly r = "weekday"%string -> 1 <= r_interval r -> until_is_date r ->
  1 <= dt_date dt -> dt_date dt <= stop <= MAXORD ->
  on_day_spill r (dt_date dt) stop = true -> over (on_day_spill r) r None (dt_date dt) stop = true ->
  yields r dt None (expected (on_day_spill r) r (dt_date dt) stop).
Proof.
  exact (fun r dt stop H1 H2 H3 H4 H5 H6 H7 H8 =>
    eq_ind _ (fun l => yields r dt None l) (weekday_spill_stop r dt None stop H1 H2 H3 H4 H5 H6 H7 H8) _ (sel_list_none _ _ _ _)).
Qed.

(** the fifth Monday of January 2024 repeats on the first Monday of March *)
Theorem C04_fifth_weekday_refuted : exists r dt e out,
  r_kind r = KMonthly /\ r_monthly r = "weekday"%string /\ valid_rule r
  /\ apply 20 r dt (Some (VDate e)) = (out, GStop)
  /\ (exists d, In d out /\ on_day r (dt_date dt) d = false)
  /\ (nth_weekday (dt_date dt) = 4 /\ In (ymd2ord 2024 3 4) out /\ nth_weekday (ymd2ord 2024 3 4) = 0).
Proof.
  exists (mkRule KMonthly 1 None None [] [] "weekday"%string), jan29, (ymd2ord 2024 6 30).
  eexists. split; [reflexivity|]. split; [reflexivity|]. split; [vm_compute; reflexivity|].
  split; [vm_compute; reflexivity|]. split.
  - exists (ymd2ord 2024 3 4). split; vm_compute; tauto.
  - vm_compute. tauto.
Qed.

Example C04_case :
  let r := mkRule KMonthly 2 (Some 4) None [] [] "weekday"%string in
  let dt := ymd2ord 2024 1 10 * DAY in
  (1 <= r_interval r /\ until_is_date r /\ 1 <= dt_date dt <= MAXORD /\ day_of (dt_date dt) <= 28
   /\ mi (ymd2ord 2024 5 31) + r_interval r + 1 <= 12 * 9999 + 11)
  /\ ymds (expected (on_day r) r (dt_date dt) (ymd2ord 2024 5 31))
     = [(2024, 1, 10); (2024, 3, 13); (2024, 5, 8)].
Proof. ground. Qed.

(** * C05 monthly, n-th last weekday *)
Theorem C05_lastweekday_exact_partial : forall r dt e,
  r_kind r = KMonthly -> r_monthly r = "lastweekday"%string -> 1 <= r_interval r -> until_is_date r ->
  1 <= dt_date dt -> mi (dt_date dt) < 12 * 9999 + 11 -> mi e + r_interval r + 2 <= 12 * 9999 + 11 ->
  nth_last_weekday (dt_date dt) <= 3 ->
  yields r dt (Some e) (expected (on_day r) r (dt_date dt) e).
Proof.
  exact (fun r dt e H1 H2 H3 H4 H5 H6 H7 H8 =>
    eq_ind_r (fun l => yields r dt (Some e) l) (last_spill_enddate r dt e H1 H2 H3 H4 H5 H6 H7)
      (expected_ext (on_day r) (on_day_spill r) r (dt_date dt) e
         (fun x Hx => on_day_last_natural r (dt_date dt) x H1 H2 H5 Hx H8))).
Qed.

Theorem C05_lastweekday_spill_exact : forall r dt e,
  r_kind r = KMonthly -> r_monthly r = "lastweekday"%string -> 1 <= r_interval r -> until_is_date r ->
  1 <= dt_date dt -> mi (dt_date dt) < 12 * 9999 + 11 -> mi e + r_interval r + 2 <= 12 * 9999 + 11 ->
  yields r dt (Some e) (expected (on_day_spill r) r (dt_date dt) e).
Proof. exact last_spill_enddate. Qed.

Theorem C05_lastweekday_spill_exact_unbounded : forall r dt stop,
  r_kind r = KMonthly -> r_monthly r = "lastweekday"%string -> 1 <= r_interval r -> until_is_date r ->
  1 <= dt_date dt -> dt_date dt <= stop ->
  stop + 7 * (nth_last_weekday (dt_date dt) + 1) <= MAXORD ->
  on_day_spill r (dt_date dt) stop = true -> over (on_day_spill r) r None (dt_date dt) stop = true ->
  yields r dt None (expected (on_day_spill r) r (dt_date dt) stop).
Proof.
  exact (fun r dt stop H1 H2 H3 H4 H5 H6 H7 H8 H9 =>
    eq_ind _ (fun l => yields r dt None l) (last_spill_stop r dt None stop H1 H2 H3 H4 H5 H6 H7 H8 H9) _ (sel_list_none _ _ _ _)).
Qed.

(** the fifth-last Monday of January 2024 repeats in the same month *)
Theorem C05_fifth_last_weekday_refuted : exists r dt e out,
  r_kind r = KMonthly /\ r_monthly r = "lastweekday"%string /\ valid_rule r
  /\ apply 20 r dt (Some (VDate e)) = (out, GStop)
  /\ (exists d, In d out /\ on_day r (dt_date dt) d = false)
  /\ (nth_last_weekday (dt_date dt) = 4 /\ In (ymd2ord 2024 1 29) out
      /\ nth_last_weekday (ymd2ord 2024 1 29) = 0).
Proof.
  exists (mkRule KMonthly 1 None None [] [] "lastweekday"%string), jan01, (ymd2ord 2024 6 30).
  eexists. split; [reflexivity|]. split; [reflexivity|]. split; [vm_compute; reflexivity|].
  split; [vm_compute; reflexivity|]. split.
  - exists (ymd2ord 2024 1 29). split; vm_compute; tauto.
  - vm_compute. tauto.
Qed.

Example C05_case :
  let r := mkRule KMonthly 1 (Some 3) None [] [] "lastweekday"%string in
  (1 <= r_interval r /\ until_is_date r /\ 1 <= dt_date jan31 /\ mi (dt_date jan31) < 12 * 9999 + 11
   /\ nth_last_weekday (dt_date jan31) <= 3
   /\ mi (ymd2ord 2024 4 5) + r_interval r + 2 <= 12 * 9999 + 11)
  /\ ymds (expected (on_day r) r (dt_date jan31) (ymd2ord 2024 4 5))
     = [(2024, 1, 31); (2024, 2, 28); (2024, 3, 27)].
Proof. ground. Qed.

(** * C06 yearly *)
Theorem C06_yearly_exact_partial : forall r dt e,
  r_kind r = KYearly -> 1 <= r_interval r -> until_is_date r ->
  1 <= dt_date dt <= MAXORD ->
  ~ (month_of (dt_date dt) = 2 /\ day_of (dt_date dt) = 29) ->
  year_of e + r_interval r <= MAXYEAR ->
  yields r dt (Some e) (expected (on_day r) r (dt_date dt) e).
Proof. exact yearly_enddate. Qed.

Theorem C06_yearly_exact_unbounded_partial : forall r dt stop,
  r_kind r = KYearly -> 1 <= r_interval r -> until_is_date r ->
  1 <= dt_date dt -> dt_date dt <= stop <= MAXORD ->
  ~ (month_of (dt_date dt) = 2 /\ day_of (dt_date dt) = 29) ->
  on_day r (dt_date dt) stop = true -> over (on_day r) r None (dt_date dt) stop = true ->
  yields r dt None (expected (on_day r) r (dt_date dt) stop).
Proof.
  exact (fun r dt stop H1 H2 H3 H4 H5 H6 H7 H8 =>
    eq_ind _ (fun l => yields r dt None l) (yearly_stop r dt None stop H1 H2 H3 H4 H5 H6 H7 H8) _ (sel_list_none _ _ _ _)).
Qed.

(** a yearly event on 29 February 2024 breaks every expansion that reaches 2025,
    though 2028-02-29 is one of its repetitions *)
Theorem C06_leap_day_refuted : exists r dt e,
  r_kind r = KYearly /\ valid_rule r /\ until_is_date r
  /\ (forall F, apply (S F) r dt (Some (VDate e)) = ([dt_date dt], GRaise ValueError))
  /\ In (ymd2ord 2028 2 29) (expected (on_day r) r (dt_date dt) e).
Proof.
  exists (mkRule KYearly 1 None None [] [] "monthday"%string), feb29, (ymd2ord 2030 1 1).
  split; [reflexivity|]. split; [vm_compute; reflexivity|]. split; [exact I|].
  split; [intros F; vm_compute; reflexivity|]. unfold expected. rewrite filter_In. split; [apply in_days; vm_compute; intuition congruence|vm_compute; reflexivity].
Qed.

Example C06_case :
  let r := mkRule KYearly 2 None None [VDate (ymd2ord 2026 1 31)] [] "monthday"%string in
  (1 <= r_interval r /\ until_is_date r /\ 1 <= dt_date jan31 <= MAXORD
   /\ ~ (month_of (dt_date jan31) = 2 /\ day_of (dt_date jan31) = 29)
   /\ year_of (ymd2ord 2030 12 31) + r_interval r <= MAXYEAR)
  /\ ymds (expected (on_day r) r (dt_date jan31) (ymd2ord 2030 12 31))
     = [(2024, 1, 31); (2028, 1, 31); (2030, 1, 31)].
Proof. ground. Qed.

(** * C01-C06, all kinds: an expansion over a bounded period that finishes
    normally is exact, without any side condition on the calendar's end *)
Theorem C01_C06_finished_is_exact : forall F r dt e l,
  r_kind r <> KNo -> valid_rule r -> 1 <= dt_date dt ->
  apply F r dt (Some (VDate e)) = (l, GStop) -> l = expected (code_on r) r (dt_date dt) e.
Proof. exact apply_sound. Qed.

(** ... and it does finish normally unless it gets close to the year 9999 *)
Theorem C01_C06_finishes : forall r dt e,
  r_kind r <> KNo -> valid_rule r -> until_is_date r -> 1 <= dt_date dt <= MAXORD -> 1 <= e ->
  year_of e + 16 * r_interval r < MAXYEAR /\ year_of (dt_date dt) < MAXYEAR
  /\ ~ (r_kind r = KYearly /\ month_of (dt_date dt) = 2 /\ day_of (dt_date dt) = 29) ->
  yields r dt (Some e) (expected (code_on r) r (dt_date dt) e).
Proof. exact apply_total. Qed.

(** * C07 order *)
Theorem C07_strictly_increasing : forall F r dt ed,
  1 <= r_interval r -> 1 <= dt_date dt ->
  StronglySorted Z.lt (fst (apply F r dt ed)) /\ Forall (fun d => dt_date dt <= d) (fst (apply F r dt ed)).
Proof. exact apply_sorted. Qed.

Example C07_case :
  let r := mkRule KMonthly 1 None None [] [] "lastweekday"%string in
  1 <= r_interval r /\ 1 <= dt_date jan01
  /\ ymds (fst (apply 4 r jan01 None)) = [(2024, 1, 1); (2024, 1, 29); (2024, 2, 26); (2024, 4, 1)].
Proof. ground. Qed.

(** * C08 the end date truncates *)
Theorem C08_enddate_truncates : forall F r dt e,
  r_kind r <> KNo -> 1 <= r_interval r -> 1 <= dt_date dt ->
  fst (apply F r dt (Some (VDate e))) = filter (fun d => d <=? e) (fst (apply F r dt None)).
Proof. exact apply_trunc. Qed.

(** the non-repeating rule ignores the end date *)
Theorem C08_norule_refuted : exists r dt e,
  r_kind r = KNo /\ valid_rule r /\ e < dt_date dt
  /\ forall F, apply F r dt (Some (VDate e)) = ([dt_date dt], GStop).
Proof.
  exists (mkRule KNo 1 None None [] [] "monthday"%string), jan31, (ymd2ord 2024 1 30).
  split; [reflexivity|]. split; [vm_compute; reflexivity|].
  split; [vm_compute; reflexivity|]. intros F. vm_compute. reflexivity.
Qed.

Example C08_case :
  let r := mkRule KWeekly 1 None None [] [0] "monthday"%string in
  r_kind r <> KNo /\ 1 <= r_interval r /\ 1 <= dt_date jan31
  /\ ymds (fst (apply 14 r jan31 None))
     = [(2024, 1, 31); (2024, 2, 5); (2024, 2, 7); (2024, 2, 12)]
  /\ ymds (fst (apply 14 r jan31 (Some (VDate (ymd2ord 2024 2 6)))))
     = [(2024, 1, 31); (2024, 2, 5)].
Proof. ground. Qed.

(** * C09 termination *)
Theorem C09_terminates_partial : forall r dt ed,
  valid_rule r -> 1 <= dt_date dt <= MAXORD ->
  exists N out f, f <> GMore /\ forall F, (N <= F)%nat -> apply F r dt ed = (out, f).
Proof. exact (fun r dt ed V => apply_outcome r dt ed (proj1 (validate_inv r V))). Qed.

(** giving more fuel only continues the same iteration *)
Theorem C09_fuel_is_immaterial : forall r dt ed F F', (F <= F')%nat ->
  match snd (apply F r dt ed) with
  | GMore => exists t, fst (apply F' r dt ed) = fst (apply F r dt ed) ++ t
  | _ => apply F' r dt ed = apply F r dt ed
  end.
Proof. exact apply_fuel. Qed.

(** a rule with INTERVAL=0, which importing an RRULE produces, never finishes *)
Theorem C09_interval_zero_refuted : exists r dt e,
  r_interval r = 0 /\ forall F, snd (apply F r dt (Some (VDate e))) = GMore.
Proof.
  exists (mkRule KDaily 0 None None [] [] "monthday"%string), jan31, (ymd2ord 2024 2 1).
  split; [reflexivity|]. intros F.
  apply daily_zero_diverges; try reflexivity; vm_compute; intuition congruence.
Qed.

Example C09_case :
  let r := mkRule KMonthly 7 None None [] [] "monthday"%string in
  valid_rule r /\ 1 <= dt_date feb29 <= MAXORD.
Proof. ground. Qed.

(** * C10 validation *)
Theorem C10_constructor : forall k i c u ex wds m,
  (args_ok k i c u ex wds m /\ exists r, mk_rule k i c u ex wds m = Ok r
     /\ r_kind r = k /\ r_interval r = i /\ r_count r = c /\ r_until r = u /\ r_exceptions r = ex
     /\ (k = KWeekly -> r_weekdays r = wds) /\ (k = KMonthly -> r_monthly r = m))
  \/ (~ args_ok k i c u ex wds m /\ mk_rule k i c u ex wds m = Raise ValueError).
Proof. exact mk_rule_spec. Qed.

Theorem C10_replace : forall r i c u ex wds m,
  let i' := match i with Some x => x | None => r_interval r end in
  let c' := match c with Some x => x | None => r_count r end in
  let u' := match u with Some x => x | None => r_until r end in
  let ex' := match ex with Some x => x | None => r_exceptions r end in
  let wds' := match wds with Some x => x | None => r_weekdays r end in
  let m' := match m with Some x => x | None => r_monthly r end in
  (args_ok (r_kind r) i' c' u' ex' wds' m' /\ exists r', replace r i c u ex wds m = Ok r'
     /\ r_kind r' = r_kind r /\ r_interval r' = i' /\ r_count r' = c' /\ r_until r' = u' /\ r_exceptions r' = ex'
     /\ (r_kind r = KWeekly -> r_weekdays r' = wds') /\ (r_kind r = KMonthly -> r_monthly r' = m'))
  \/ (~ args_ok (r_kind r) i' c' u' ex' wds' m' /\ replace r i c u ex wds m = Raise ValueError).
Proof. exact (fun r i c u ex wds m => mk_rule_spec _ _ _ _ _ _ _). Qed.

Example C10_case :
  mk_rule KWeekly 1 (Some 3) None [] [7] "" = Raise ValueError
  /\ args_ok KWeekly 1 (Some 3) None [VDate 5] [0; 6] ""
  /\ ~ args_ok KDaily 1 (Some 3) (Some (VDate 9)) [] [] "".
Proof.
  split; [reflexivity|]. split.
  - unfold args_ok. split; [intros [_ X]; congruence|]. split; [lia|].
    split; [intros v [<-|[]]; discriminate|]. split; [|discriminate].
    intros _ d [<-|[<-|[]]]; lia.
  - intros (X & _). apply X. split; discriminate.
Qed.

(** * C11 equality *)
Theorem C11_equal_rules_interchangeable : forall a b F dt ed,
  rule_eq a b = true -> apply F a dt ed = apply F b dt ed.
Proof. exact (fun a b F dt ed => rule_eq_apply a b F dt ed). Qed.

(** equality is equality of the tuples handed to hash(): an equivalence
    relation, compatible with hashing, and [!=] is its negation *)
Theorem C11_equality_is_tuple_equality : forall a b,
  (rule_eq a b = true <-> tuple_for_comparison a = tuple_for_comparison b)
  /\ rule_ne a b = negb (rule_eq a b).
Proof. exact (fun a b => conj (rule_eq_tuple a b) eq_refl). Qed.

Theorem C11_equivalence : 
  (forall a, rule_eq a a = true)
  /\ (forall a b, rule_eq a b = true -> rule_eq b a = true)
  /\ (forall a b c, rule_eq a b = true -> rule_eq b c = true -> rule_eq a c = true).
Proof.
  exact (conj (fun a => proj2 (rule_eq_tuple a a) eq_refl)
    (conj (fun a b H => proj2 (rule_eq_tuple b a) (eq_sym (proj1 (rule_eq_tuple a b) H)))
      (fun a b c H1 H2 => proj2 (rule_eq_tuple a c)
         (eq_trans (proj1 (rule_eq_tuple a b) H1) (proj1 (rule_eq_tuple b c) H2))))).
Qed.

Example C11_case :
  rule_eq (mkRule KWeekly 2 None None [VDate 5] [1; 2] "") (mkRule KWeekly 2 None None [VDate 5] [1; 2] "x") = true
  /\ rule_eq (mkRule KWeekly 2 None None [VDate 5] [1; 2] "") (mkRule KWeekly 2 None None [VDate 5] [2; 1] "") = false
  /\ rule_eq (mkRule KDaily 2 None None [] [] "") (mkRule KBasic 2 None None [] [] "") = false.
Proof. ground. Qed.

(** * C12 the first repetition *)
Theorem C12_first_is_start : forall F r dt ed,
  valid_rule r -> until_is_date r -> 1 <= dt_date dt <= MAXORD ->
  (r_kind r = KMonthly -> r_monthly r = "lastweekday"%string ->
     year_of (dt_date dt) < 9999 \/ month_of (dt_date dt) < 12) ->
  over (code_on r) r ed (dt_date dt) (dt_date dt) = false ->
  is_exception r (dt_date dt) = false ->
  hd_error (fst (apply (S F) r dt (option_map VDate ed))) = Some (dt_date dt).
Proof.
  intros F r dt ed. assert (D : r_kind r = KNo \/ r_kind r <> KNo) by (destruct (r_kind r); auto; right; discriminate).
  destruct D as [K|K]; [|now apply apply_first]. intros. unfold apply. rewrite K. reflexivity.
Qed.

(** when count, until or the end date exclude the start, nothing comes out at
    all; an exception is never produced *)
Theorem C12_excluded_start : forall F r dt ed,
  r_kind r <> KNo -> valid_rule r -> until_is_date r -> 1 <= dt_date dt ->
  over (code_on r) r ed (dt_date dt) (dt_date dt) = true ->
  fst (apply F r dt (option_map VDate ed)) = [].
Proof. exact over_first_nil. Qed.

Theorem C12_exceptions_never_produced : forall F r dt ed d, r_kind r <> KNo ->
  In d (fst (apply F r dt (option_map VDate ed))) -> is_exception r d = false.
Proof. exact apply_not_excepted. Qed.

Example C12_case :
  let r := mkRule KMonthly 1 (Some 2) None [] [] "lastweekday"%string in
  valid_rule r /\ until_is_date r /\ year_of (dt_date jan01) < 9999
  /\ over (code_on r) r None (dt_date jan01) (dt_date jan01) = false
  /\ over (code_on (mkRule KDaily 1 (Some 0) None [] [] "")) (mkRule KDaily 1 (Some 0) None [] [] "")
       None (dt_date jan01) (dt_date jan01) = true.
Proof. ground. Qed.

(** in December 9999 the n-th-last-weekday search itself leaves the calendar *)
Theorem C12_december_9999_refuted : exists r dt,
  valid_rule r /\ 1 <= dt_date dt <= MAXORD /\ r_exceptions r = [] /\ r_count r = None /\ r_until r = None
  /\ forall F, apply (S F) r dt None = ([], GRaise ValueError).
Proof.
  exists (mkRule KMonthly 1 None None [] [] "lastweekday"%string), (MAXORD * DAY).
  split; [vm_compute; reflexivity|]. split; [vm_compute; intuition congruence|].
  split; [reflexivity|]. split; [reflexivity|]. split; [reflexivity|].
  intros F. vm_compute. reflexivity.
Qed.

(** * C13 weekspan *)
Theorem C13_weekspan : forall a b, 1 <= a <= MAXORD -> 1 <= b <= MAXORD ->
  exists w, weekspan a b = Ok w /\
    (* w is the distance of the two Mondays, in weeks *)
    7 * w = (b - weekday b) - (a - weekday a).
Proof.
  intros a b Ha Hb. exists (week_no b - week_no a). split; [exact (weekspan_ok a b Ha Hb)|].
  unfold week_no, weekday.
  pose proof (Z.div_mod (a + 6) 7 ltac:(discriminate)). pose proof (Z.div_mod (b + 6) 7 ltac:(discriminate)).
  replace (a - (a + 6) mod 7 - 1) with ((((a + 6) / 7) - 1) * 7) by lia.
  replace (b - (b + 6) mod 7 - 1) with ((((b + 6) / 7) - 1) * 7) by lia.
  rewrite !Z.div_mul by discriminate. lia.
Qed.

(** so it is zero exactly for dates of one Monday-to-Sunday week, additive, and
    moves by one for each seven days *)
Theorem C13_weekspan_zero : forall a b, 1 <= a <= MAXORD -> 1 <= b <= MAXORD ->
  (weekspan a b = Ok 0 <-> a - weekday a = b - weekday b).
Proof.
  intros a b Ha Hb. destruct (C13_weekspan a b Ha Hb) as [w [E W]]. rewrite E.
  split; [intros X; injection X as ->; lia|]. intros X. f_equal. lia.
Qed.

Theorem C13_weekspan_additive : forall a b c x y,
  1 <= a <= MAXORD -> 1 <= b <= MAXORD -> 1 <= c <= MAXORD ->
  weekspan a b = Ok x -> weekspan b c = Ok y -> weekspan a c = Ok (x + y).
Proof.
  intros a b c x y Ha Hb Hc X Y.
  destruct (C13_weekspan a b Ha Hb) as [w1 [E1 W1]]. destruct (C13_weekspan b c Hb Hc) as [w2 [E2 W2]].
  destruct (C13_weekspan a c Ha Hc) as [w3 [E3 W3]].
  rewrite X in E1. injection E1 as <-. rewrite Y in E2. injection E2 as <-. rewrite E3. f_equal. lia.
Qed.

Theorem C13_weekspan_steps : forall a b k, 1 <= a <= MAXORD -> 1 <= b <= MAXORD -> b = a + 7 * k ->
  weekspan a b = Ok k.
Proof.
  intros a b k Ha Hb E. destruct (C13_weekspan a b Ha Hb) as [w [E1 W1]]. rewrite E1. f_equal.
  subst b. unfold weekday in W1. replace (a + 7 * k + 6) with (a + 6 + k * 7) in W1 by lia.
  rewrite Z.mod_add in W1 by discriminate. lia.
Qed.

Example C13_case : weekspan (ymd2ord 2024 1 7) (ymd2ord 2024 1 8) = Ok 1
  /\ weekspan (ymd2ord 2024 1 1) (ymd2ord 2024 1 7) = Ok 0 /\ weekspan MAXORD 1 = Ok (-521722).
Proof. ground. Qed.

(** * C14 monthindex *)
Theorem C14_monthindex : forall y m n wd,
  1 <= y <= MAXYEAR -> 1 <= m <= 12 -> 1 <= n <= 4 -> 0 <= wd <= 6 ->
  exists d, monthindex y m n wd = Ok d /\ 1 <= d <= MAXORD /\ year_of d = y /\ month_of d = m
    /\ weekday d = wd /\ nth_weekday d = n - 1.
Proof. exact monthindex_front. Qed.

Theorem C14_monthindex_from_end : forall y m n wd,
  1 <= y <= MAXYEAR -> 1 <= m <= 12 -> ~ (y = 9999 /\ m = 12) -> 1 <= n <= 4 -> 0 <= wd <= 6 ->
  exists d, monthindex y m (- n) wd = Ok d /\ 1 <= d <= MAXORD /\ year_of d = y /\ month_of d = m
    /\ weekday d = wd /\ nth_last_weekday d = n - 1.
Proof. exact monthindex_back. Qed.

(** these conditions pin the date down *)
Theorem C14_unique : forall a b, 1 <= a -> 1 <= b -> year_of a = year_of b -> month_of a = month_of b ->
  weekday a = weekday b ->
  nth_weekday a = nth_weekday b \/ nth_last_weekday a = nth_last_weekday b -> a = b.
Proof.
  exact (fun a b A B Y M W N => match N with
    | or_introl N => nth_unique a b A B Y M W N | or_intror N => nth_last_unique a b A B Y M W N end).
Qed.

Example C14_case : monthindex 2024 2 4 3 = Ok (ymd2ord 2024 2 22)
  /\ monthindex 2024 2 (-1) 3 = Ok (ymd2ord 2024 2 29).
Proof. ground. Qed.

Print Assumptions C01_daily_exact.
Print Assumptions C01_daily_exact_unbounded.
Print Assumptions C02_weekly_exact.
Print Assumptions C02_weekly_exact_unbounded.
Print Assumptions C03_monthday_exact.
Print Assumptions C03_monthday_exact_unbounded.
Print Assumptions C03_monthday_exact_years.
Print Assumptions C04_weekday_exact_partial.
Print Assumptions C04_weekday_spill_exact.
Print Assumptions C04_weekday_spill_exact_unbounded.
Print Assumptions C04_fifth_weekday_refuted.
Print Assumptions C05_lastweekday_exact_partial.
Print Assumptions C05_lastweekday_spill_exact.
Print Assumptions C05_lastweekday_spill_exact_unbounded.
Print Assumptions C05_fifth_last_weekday_refuted.
Print Assumptions C06_yearly_exact_partial.
Print Assumptions C06_yearly_exact_unbounded_partial.
Print Assumptions C06_leap_day_refuted.
Print Assumptions C01_C06_finished_is_exact.
Print Assumptions C01_C06_finishes.
Print Assumptions C07_strictly_increasing.
Print Assumptions C08_enddate_truncates.
Print Assumptions C08_norule_refuted.
Print Assumptions C09_terminates_partial.
Print Assumptions C09_fuel_is_immaterial.
Print Assumptions C09_interval_zero_refuted.
Print Assumptions C10_constructor.
Print Assumptions C10_replace.
Print Assumptions C11_equal_rules_interchangeable.
Print Assumptions C11_equality_is_tuple_equality.
Print Assumptions C11_equivalence.
Print Assumptions C12_first_is_start.
Print Assumptions C12_excluded_start.
Print Assumptions C12_exceptions_never_produced.
Print Assumptions C12_december_9999_refuted.
Print Assumptions C13_weekspan.
Print Assumptions C13_weekspan_zero.
Print Assumptions C13_weekspan_additive.
Print Assumptions C13_weekspan_steps.
Print Assumptions C14_monthindex.
Print Assumptions C14_monthindex_from_end.
Print Assumptions C14_unique.
