(** Property theorems C129: the calendar repeats every 400 years, and so do the
    dates of a rule. *)
From Verif Require Import Base PyDate DateFacts CalTime Recurrent SpecRecur RecurProofs RecurExact RecurMain RecurOrder RecurSound RecurMisc Event Storage EventProofs TimeProofs QueryProofs.
From Coq Require Import ZifyBool.

(** ** 400 years are 146097 days, a whole number of weeks *)
Definition CYCLE : Z := 146097.

Lemma ord2ymd_cycle o k : ord2ymd (o + k * CYCLE) = let '(y, m, d) := ord2ymd o in (y + 400 * k, m, d).
Proof.
  unfold ord2ymd. assert (E : o + k * CYCLE - 1 = (o - 1) + k * 146097) by (unfold CYCLE; lia). rewrite E, Z.div_add, Z.mod_add by lia.
  destruct ((_ =? 4) || (_ =? 4)); f_equal; try lia; f_equal; lia.
Qed.

Lemma year_cycle o k : year_of (o + k * CYCLE) = year_of o + 400 * k.
Proof. unfold year_of. rewrite ord2ymd_cycle. now destruct (ord2ymd o) as [[y m] d]. Qed.
Lemma month_cycle o k : month_of (o + k * CYCLE) = month_of o.
Proof. unfold month_of. rewrite ord2ymd_cycle. now destruct (ord2ymd o) as [[y m] d]. Qed.
Lemma day_cycle o k : day_of (o + k * CYCLE) = day_of o.
Proof. unfold day_of. rewrite ord2ymd_cycle. now destruct (ord2ymd o) as [[y m] d]. Qed.

Lemma leap_cycle y k : is_leap (y + 400 * k) = is_leap y.
Proof.
  unfold is_leap. replace (y + 400 * k) with (y + (100 * k) * 4) by lia. rewrite Z.mod_add by lia.
  replace (y + 100 * k * 4) with (y + (4 * k) * 100) by lia. rewrite Z.mod_add by lia.
  replace (y + 4 * k * 100) with (y + k * 400) by lia. rewrite Z.mod_add by lia. reflexivity.
Qed.
Lemma dim_cycle y k m : days_in_month (y + 400 * k) m = days_in_month y m.
Proof. unfold days_in_month. now rewrite leap_cycle. Qed.
Lemma weekday_cycle o k : weekday (o + k * CYCLE) = weekday o.
Proof. unfold weekday, CYCLE. replace (o + k * 146097 + 6) with (o + 6 + (k * 20871) * 7) by lia. now rewrite Z.mod_add by lia. Qed.

(** ** moving a rule, an event's start and an end date by whole cycles *)
Definition move_dval (h : Z) (v : dval) : dval := match v with VDate x => VDate (x + h) | _ => v end.
Definition move_rule (h : Z) (r : rule) : rule :=
  mkRule (r_kind r) (r_interval r) (r_count r) (option_map (move_dval h) (r_until r))
         (map (move_dval h) (r_exceptions r)) (r_weekdays r) (r_monthly r).

Lemma day_le o : 1 <= o -> day_of o <= o.
Proof.
  intros H. rewrite <- (ord_roundtrip o H) at 2. unfold ymd2ord.
  pose proof (year_ge1 o H) as Y. pose proof (month_range o H) as M.
  assert (days_before_year 1 <= days_before_year (year_of o)) by (apply dby_mono; lia).
  change (days_before_year 1) with 0 in H0. unfold days_before_month.
  assert (0 <= dbm_common (month_of o)).
  { assert (C : month_of o = 1 \/ month_of o = 2 \/ month_of o = 3 \/ month_of o = 4 \/ month_of o = 5 \/ month_of o = 6
              \/ month_of o = 7 \/ month_of o = 8 \/ month_of o = 9 \/ month_of o = 10 \/ month_of o = 11 \/ month_of o = 12) by lia.
    repeat (destruct C as [-> | C]; [vm_compute; discriminate|]). rewrite C. vm_compute; discriminate. }
  destruct ((2 <? month_of o) && is_leap (year_of o)); lia.
Qed.

Lemma every_move n a b h : every n (a + h) (b + h) = every n a b.
Proof. unfold every. now replace (b + h - (a + h)) with (b - a) by lia. Qed.
Lemma week_no_cycle d k : week_no (d + k * CYCLE) = week_no d + k * 20871.
Proof.
  unfold week_no. rewrite weekday_cycle. unfold CYCLE.
  replace (d + k * 146097 - weekday d - 1) with ((d - weekday d - 1) + (k * 20871) * 7) by lia. now rewrite Z.div_add by lia.
Qed.
Lemma month_no_cycle d k : month_no (d + k * CYCLE) = month_no d + k * 4800.
Proof. unfold month_no. rewrite year_cycle, month_cycle. lia. Qed.
Lemma nth_cycle d k : nth_weekday (d + k * CYCLE) = nth_weekday d.
Proof. unfold nth_weekday. now rewrite day_cycle. Qed.
Lemma nth_last_cycle d k : nth_last_weekday (d + k * CYCLE) = nth_last_weekday d.
Proof. unfold nth_last_weekday. now rewrite day_cycle, year_cycle, month_cycle, dim_cycle. Qed.

Lemma on_day_cycle r s d k : on_day (move_rule (k * CYCLE) r) (s + k * CYCLE) (d + k * CYCLE) = on_day r s d.
Proof.
  unfold on_day, move_rule; cbn [r_kind r_interval r_weekdays r_monthly].
  rewrite !day_cycle, !month_cycle, !year_cycle, !weekday_cycle, !week_no_cycle, !month_no_cycle, !nth_cycle, !nth_last_cycle, !every_move.
  destruct (r_kind r); try reflexivity. lia.
Qed.

(** position of the start within its month, which the spilling days depend on *)
Lemma nth_weekday_le s : 1 <= s -> 7 * nth_weekday s < s.
Proof.
  intros H. unfold nth_weekday. pose proof (day_le s H). pose proof (day_range s H).
  pose proof (Z.mul_div_le (day_of s - 1) 7). lia.
Qed.

Lemma spill_cycle r s d k : 1 <= s <= d -> 1 <= s + k * CYCLE ->
  on_day_spill (move_rule (k * CYCLE) r) (s + k * CYCLE) (d + k * CYCLE) = on_day_spill r s d.
Proof.
  intros Hs Hk. pose proof (nth_weekday_le s ltac:(lia)) as N. pose proof (nth_weekday_le (s + k * CYCLE) ltac:(lia)) as N'. rewrite nth_cycle in N'.
  unfold on_day_spill, move_rule; cbn [r_interval r_monthly]. rewrite !nth_cycle, !nth_last_cycle, !weekday_cycle.
  replace (d + k * CYCLE - 7 * nth_weekday s) with (d - 7 * nth_weekday s + k * CYCLE) by lia.
  replace (d + k * CYCLE + 7 * (nth_last_weekday s + 1)) with (d + 7 * (nth_last_weekday s + 1) + k * CYCLE) by lia.
  rewrite !day_cycle, !month_no_cycle, !every_move.
  replace (1 <=? d - 7 * nth_weekday s + k * CYCLE) with true by lia.
  replace (1 <=? d - 7 * nth_weekday s) with true by lia.
  replace (month_no (d + 7 * (nth_last_weekday s + 1)) + k * 4800 - 1) with (month_no (d + 7 * (nth_last_weekday s + 1)) - 1 + k * 4800) by lia.
  now rewrite every_move.
Qed.

(** after how many days the calendar looks the same to a rule of this kind *)
Definition turn (k : kind) : Z :=
  match k with KNo | KBasic | KDaily => 1 | KWeekly => 7 | KMonthly | KYearly => CYCLE end.

Lemma code_on_turn r s d k h : h = k * turn (r_kind r) -> 1 <= s <= d -> 1 <= s + h ->
  code_on (move_rule h r) (s + h) (d + h) = code_on r s d.
Proof.
  intros Hh Hs Hk. unfold code_on. change (r_kind (move_rule h r)) with (r_kind r).
  change (r_monthly (move_rule h r)) with (r_monthly r).
  destruct (r_kind r) eqn:K; cbn [turn] in Hh.
  - unfold on_day, move_rule; cbn [r_kind r_interval]; rewrite K. apply every_move.
  - unfold on_day, move_rule; cbn [r_kind r_interval]; rewrite K. lia.
  - unfold on_day, move_rule; cbn [r_kind r_interval]; rewrite K. apply every_move.
  - subst h. apply on_day_cycle.
  - unfold on_day, move_rule; cbn [r_kind r_interval r_weekdays]; rewrite K.
    assert (W : forall o, weekday (o + h) = weekday o)
      by (intros o; unfold weekday; subst h; replace (o + k * 7 + 6) with (o + 6 + k * 7) by lia; now rewrite Z.mod_add by lia).
    assert (N : forall o, week_no (o + h) = week_no o + k)
      by (intros o; unfold week_no; rewrite W; subst h; replace (o + k * 7 - weekday o - 1) with (o - weekday o - 1 + k * 7) by lia;
          now rewrite Z.div_add by lia).
    now rewrite !W, !N, every_move.
  - subst h. destruct (_ =? _)%string; [apply on_day_cycle | now apply spill_cycle].
Qed.

Lemma days_move a b h : days (a + h) (b + h) = map (fun d => d + h) (days a b).
Proof.
  unfold days. rewrite map_map. replace (b + h - (a + h) + 1) with (b - a + 1) by lia. apply map_ext. intros n. lia.
Qed.
Lemma days_in a b d : In d (days a b) -> a <= d <= b.
Proof. unfold days. rewrite in_map_iff. intros (n & <- & H). apply in_seq in H. lia. Qed.

Lemma filter_move (p q : Z -> bool) h l : (forall d, In d l -> p (d + h) = q d) ->
  filter p (map (fun d => d + h) l) = map (fun d => d + h) (filter q l).
Proof.
  induction l as [|d l IH]; [reflexivity|]. intros H. cbn [map filter]. rewrite (H d (or_introl eq_refl)).
  rewrite IH by (intros x Hx; apply H; now right). now destruct (q d).
Qed.

Lemma rank_turn r s d k h : h = k * turn (r_kind r) -> 1 <= s -> 1 <= s + h ->
  rank (code_on (move_rule h r)) (s + h) (d + h) = rank (code_on r) s d.
Proof.
  intros Hh Hs Hk. unfold rank. replace (d + h - 1) with (d - 1 + h) by lia. rewrite days_move.
  rewrite (filter_move _ (code_on r s)); [now rewrite map_length|].
  intros x Hx. apply days_in in Hx. apply (code_on_turn r s x k); lia.
Qed.

Lemma until_move r d h : in_until (move_rule h r) (d + h) = in_until r d.
Proof. unfold in_until, move_rule; cbn [r_until]. destruct (r_until r) as [[| |]|]; cbn; try reflexivity; lia. Qed.
Lemma exception_move r d h : is_exception (move_rule h r) (d + h) = is_exception r d.
Proof.
  unfold is_exception, move_rule; cbn [r_exceptions]. induction (r_exceptions r) as [|v l IH]; [reflexivity|].
  cbn [map existsb]. rewrite IH. f_equal. destruct v; cbn; try reflexivity; lia.
Qed.

Lemma expected_turn r s e k h : h = k * turn (r_kind r) -> 1 <= s -> 1 <= s + h ->
  expected (code_on (move_rule h r)) (move_rule h r) (s + h) (e + h) = map (fun d => d + h) (expected (code_on r) r s e).
Proof.
  intros Hh Hs Hk. unfold expected. rewrite days_move. apply filter_move. intros d Hd. apply days_in in Hd.
  unfold selected, in_count. change (r_count (move_rule h r)) with (r_count r).
  rewrite (code_on_turn r s d k), (rank_turn r s d k), until_move, exception_move by lia. reflexivity.
Qed.

Lemma valid_move r h : validate (move_rule h r) = validate r.
Proof.
  assert (E : forall l, forallb is_date_instance (map (move_dval h) l) = forallb is_date_instance l).
  { induction l as [|v l IH]; [reflexivity|]. cbn [map forallb]. rewrite IH. now destruct v. }
  assert (B : basic_validate (move_rule h r) = basic_validate r).
  { unfold basic_validate, move_rule; cbn [r_count r_until r_interval r_exceptions]. rewrite E. now destruct (r_until r). }
  unfold validate. rewrite B. reflexivity.
Qed.

Lemma date_move dt h : dt_date (dt + h * DAY) = dt_date dt + h.
Proof. unfold dt_date. now rewrite Z.div_add by (unfold DAY; lia). Qed.
Lemma time_move dt h : dt_time (dt + h * DAY) = dt_time dt.
Proof. unfold dt_time. now rewrite Z.mod_add by (unfold DAY; lia). Qed.

(** * C129 a rule of an event moved by a whole number of turns gives the moved dates *)
Theorem C129_rule_moves : forall F F' r dt e l l' k h,
  h = k * turn (r_kind r) -> valid_rule r -> 1 <= dt_date dt -> 1 <= dt_date dt + h ->
  apply F r dt (Some (VDate e)) = (l, GStop) ->
  apply F' (move_rule h r) (dt + h * DAY) (Some (VDate (e + h))) = (l', GStop) ->
  l' = map (fun d => d + h) l.
Proof.
  intros F F' r dt e l l' k h Hh V Hs Hk A A'. destruct (kind_eqb (r_kind r) KNo) eqn:K.
  - apply kind_eqb_eq in K. unfold apply in A, A'. rewrite K in A. change (r_kind (move_rule h r)) with (r_kind r) in A'. rewrite K in A'.
    injection A as <-. injection A' as <-. cbn [map]. now rewrite date_move.
  - assert (K' : r_kind r <> KNo) by (intros X; rewrite X in K; discriminate).
    apply apply_sound in A; try assumption. apply apply_sound in A'; [|exact K'|unfold valid_rule; now rewrite valid_move|rewrite date_move; lia].
    subst. rewrite date_move. apply (expected_turn r _ e k); lia.
Qed.

(** ... and it does finish, the calendar's end permitting *)
Theorem C129_rule_moves_finishes : forall r dt e k h,
  h = k * turn (r_kind r) -> r_kind r <> KNo -> valid_rule r -> until_is_date r ->
  1 <= dt_date dt <= MAXORD -> 1 <= dt_date dt + h <= MAXORD -> 1 <= e -> 1 <= e + h ->
  (forall d x, (d = dt_date dt /\ x = e) \/ (d = dt_date dt + h /\ x = e + h) ->
     year_of x + 16 * r_interval r < MAXYEAR /\ year_of d < MAXYEAR
     /\ ~ (r_kind r = KYearly /\ month_of d = 2 /\ day_of d = 29)) ->
  exists l, yields r dt (Some e) l /\ yields (move_rule h r) (dt + h * DAY) (Some (e + h)) (map (fun d => d + h) l).
Proof.
  intros r dt e k h Hh K V U Hs Hk He Heh R. exists (expected (code_on r) r (dt_date dt) e). split.
  - apply apply_total; try assumption. apply R. now left.
  - rewrite <- (expected_turn r _ e k) by lia. rewrite <- date_move. apply apply_total; try assumption.
    + unfold valid_rule. now rewrite valid_move.
    + unfold until_is_date, move_rule in *; cbn [r_until]. destruct (r_until r) as [[| |]|]; cbn; auto.
    + now rewrite date_move.
    + rewrite date_move. apply R. now right.
Qed.

(** ** a whole calendar, moved *)
Definition move_period (h : Z) (p : period) : period :=
  (option_map (fun t => t + h * DAY) (fst p), option_map (fun t => t + h * DAY) (snd p)).
Definition move_event (h : Z) (e : event) : event :=
  mkEvent (e_uid e) (e_dtstart e + h * DAY) (e_duration e) (e_title e) (e_description e) (e_location e)
          (e_status e) (option_map (move_rule h) (e_recurrence e)) (e_allday e) (e_categories e) (e_transparent e)
          (e_access e) (e_document e) (e_organizer e) (e_state e) (e_role e).
Definition move_occ (h : Z) (o : occurrence event) : occurrence event :=
  mkOcc (o_dtstart o + h * DAY) (o_duration o) (move_event h (o_original o)).

Lemma in_period_move t d p H b b' : in_period t d p = Ok b ->
  in_period (t + H * DAY) d (move_period H p) = Ok b' -> b = b'.
Proof.
  destruct p as [[pb|] [pe|]]; unfold in_period, move_period; cbn [fst snd option_map]; unfold end_of, dt_add;
    try (destruct d as [d|]; [|discriminate]); cbn [rbind];
    repeat match goal with |- context [if dt_ok ?x then _ else _] => destruct (dt_ok x); [|discriminate] end; cbn [rbind].
  - replace (t + H * DAY + d <=? pb + H * DAY) with (t + d <=? pb) by lia. replace (pe + H * DAY <=? t + H * DAY) with (pe <=? t) by lia.
    destruct (t + d <=? pb); intros E E'; congruence.
  - replace (t + H * DAY + d <=? pb + H * DAY) with (t + d <=? pb) by lia.
    destruct (t + d <=? pb); intros E E'; congruence.
  - replace (pe + H * DAY <=? t + H * DAY) with (pe <=? t) by lia. intros E E'; congruence.
  - intros E E'; congruence.
Qed.

Lemma rconcat_move {A A' B B'} (f : A -> res (list B)) (f' : A' -> res (list B')) (g : A -> A') (m : B -> B') l :
  (forall x y y', In x l -> f x = Ok y -> f' (g x) = Ok y' -> y' = map m y) ->
  forall out out', rconcat_map f l = Ok out -> rconcat_map f' (map g l) = Ok out' -> out' = map m out.
Proof.
  induction l as [|x l IH]; intros H out out' E E'; cbn [rconcat_map map] in E, E'.
  - injection E as <-. injection E' as <-. reflexivity.
  - destruct (f x) as [y| |] eqn:Fx; try discriminate. destruct (f' (g x)) as [y'| |] eqn:Fx'; try discriminate. cbn [rbind] in E, E'.
    destruct (rconcat_map f l) as [ys| |] eqn:R; try discriminate. destruct (rconcat_map f' (map g l)) as [ys'| |] eqn:R'; try discriminate.
    cbn [rbind] in E, E'. injection E as <-. injection E' as <-. rewrite map_app. f_equal.
    + exact (H x y y' (or_introl eq_refl) Fx Fx').
    + apply IH; auto. intros z w w' Hz. apply H. now right.
Qed.

Lemma rfilter_move {A A'} (f : A -> res bool) (f' : A' -> res bool) (g : A -> A') l :
  (forall x y y', In x l -> f x = Ok y -> f' (g x) = Ok y' -> y = y') ->
  forall out out', rfilter f l = Ok out -> rfilter f' (map g l) = Ok out' -> out' = map g out.
Proof.
  induction l as [|x l IH]; intros H out out' E E'; cbn [rfilter map] in E, E'.
  - injection E as <-. injection E' as <-. reflexivity.
  - destruct (f x) as [y| |] eqn:Fx; try discriminate. destruct (f' (g x)) as [y'| |] eqn:Fx'; try discriminate. cbn [rbind] in E, E'.
    destruct (rfilter f l) as [ys| |] eqn:R; try discriminate. destruct (rfilter f' (map g l)) as [ys'| |] eqn:R'; try discriminate.
    cbn [rbind] in E, E'. injection E as <-. injection E' as <-. rewrite <- (H x y y' (or_introl eq_refl) Fx Fx').
    assert (ys' = map g ys) by (apply IH; auto; intros z w w' Hz; apply H; now right). subst ys'. now destruct y.
Qed.

(** ** one event *)
Theorem C129_event_moves : forall F F' e p out out' k h,
  h = k * match e_recurrence e with Some r => turn (r_kind r) | None => 1 end ->
  event_rule_ok e -> 1 <= dt_date (e_dtstart e) -> 1 <= dt_date (e_dtstart e) + h ->
  expand F e p = Ok out -> expand F' (move_event h e) (move_period h p) = Ok out' ->
  out' = map (move_occ h) out.
Proof.
  intros F F' e p out out' k h Hh V Hs Hk E E'. unfold expand in E, E'. unfold event_rule_ok in V.
  change (e_recurrence (move_event h e)) with (option_map (move_rule h) (e_recurrence e)) in E'.
  change (e_dtstart (move_event h e)) with (e_dtstart e + h * DAY) in E'. change (e_duration (move_event h e)) with (e_duration e) in E'.
  destruct (e_recurrence e) as [r|]; cbn [option_map] in E'.
  - destruct p as [pb pe]. cbn [snd move_period fst] in *. destruct pe as [pe|]; [|discriminate]. cbn [option_map] in E'.
    destruct (apply F r (e_dtstart e) (Some (VDate (dt_date pe)))) as [l f] eqn:A.
    rewrite date_move in E'.
    destruct (apply F' (move_rule h r) (e_dtstart e + h * DAY) (Some (VDate (dt_date pe + h)))) as [l' f'] eqn:A'.
    destruct (expand_dates e (pb, Some pe) l) as [o1| |] eqn:X; try discriminate. cbn [rbind] in E.
    destruct (expand_dates (move_event h e) (move_period h (pb, Some pe)) l') as [o2| |] eqn:X'; try discriminate. cbn [rbind] in E'.
    destruct f; try discriminate. injection E as <-. destruct f'; try discriminate. injection E' as <-.
    rewrite (C129_rule_moves _ _ _ _ _ _ _ k h Hh V Hs Hk A A') in X'. clear A A' l'.
    unfold expand_dates in X, X'. refine (rconcat_move _ _ _ _ l _ o1 o2 X X').
    intros d y y' _. cbv beta. change (e_dtstart (move_event h e)) with (e_dtstart e + h * DAY). change (e_duration (move_event h e)) with (e_duration e).
    rewrite time_move. replace (combine (d + h) (dt_time (e_dtstart e))) with (combine d (dt_time (e_dtstart e)) + h * DAY) by (unfold combine; lia).
    destruct (in_period (combine d (dt_time (e_dtstart e))) (e_duration e) (pb, Some pe)) as [b| |] eqn:I; try discriminate.
    destruct (in_period (combine d (dt_time (e_dtstart e)) + h * DAY) (e_duration e) (move_period h (pb, Some pe))) as [b'| |] eqn:I'; try discriminate.
    rewrite <- (in_period_move _ _ _ _ _ _ I I'). cbn [rbind]. intros Y Y'. injection Y as <-. injection Y' as <-. now destruct b.
  - destruct (in_period (e_dtstart e) (e_duration e) p) as [b| |] eqn:I; try discriminate.
    destruct (in_period (e_dtstart e + h * DAY) (e_duration e) (move_period h p)) as [b'| |] eqn:I'; try discriminate.
    rewrite <- (in_period_move _ _ _ _ _ _ I I') in E'. cbn [rbind] in E, E'. injection E as <-. injection E' as <-. now destruct b.
Qed.

(** ** every query for the moved calendar gives the moved answer *)
Lemma match_move c h e : match_criteria c (move_event h e) = match_criteria c e.
Proof.
  unfold match_criteria. change (existsb (in_category (move_event h e))) with (existsb (in_category e)).
  change (get_organizer_id (move_event h e)) with (get_organizer_id e).
  assert (M : forall l, match_attendees c (move_event h e) l = match_attendees c e l).
  { induction l as [|a l IH]; [reflexivity|]. cbn [match_attendees].
    change (has_attendee (move_event h e) a) with (has_attendee e a).
    change (get_status (move_event h e) a) with (get_status e a). change (get_role (move_event h e) a) with (get_role e a).
    now rewrite IH. }
  destruct (c_attendees c) as [l|]; [|reflexivity]. now rewrite M.
Qed.

Lemma matching_move evs c h l l' : matching_events evs c = Ok l -> matching_events (map (move_event h) evs) c = Ok l' ->
  l' = map (move_event h) l.
Proof.
  unfold matching_events. apply rfilter_move. intros e b b' _ E. rewrite match_move. congruence.
Qed.

Theorem C129_events_move : forall evs p c out out' h,
  get_events evs p c = Ok out -> get_events (map (move_event h) evs) (move_period h p) c = Ok out' ->
  out' = map (move_event h) out.
Proof.
  intros evs p c out out' h E E'. unfold get_events in E, E'.
  destruct (matching_events evs c) as [l| |] eqn:M; try discriminate.
  destruct (matching_events (map (move_event h) evs) c) as [l'| |] eqn:M'; try discriminate. cbn [rbind] in E, E'.
  rewrite (matching_move _ _ _ _ _ M M') in E'. refine (rfilter_move _ _ _ l _ out out' E E').
  intros e b b' _. cbv beta. apply in_period_move.
Qed.

(** every kind of rule looks the same after 400 years *)
Lemma cycle_turn k o : exists j, k * CYCLE = j * match o with Some r => turn (r_kind r) | None => 1 end.
Proof.
  unfold CYCLE. destruct o as [r|]; [|now exists (k * 146097); rewrite Z.mul_1_r].
  destruct (r_kind r); cbn [turn]; unfold CYCLE; first [now exists k | exists (k * 146097); lia | exists (k * 20871); lia].
Qed.

Theorem C129_calendar_repeats : forall F F' evs p c out out' k,
  (forall e, In e evs -> event_rule_ok e /\ 1 <= dt_date (e_dtstart e) /\ 1 <= dt_date (e_dtstart e) + k * CYCLE) ->
  get_occurrences F evs p c = Ok out ->
  get_occurrences F' (map (move_event (k * CYCLE)) evs) (move_period (k * CYCLE) p) c = Ok out' ->
  out' = map (move_occ (k * CYCLE)) out.
Proof.
  intros F F' evs p c out out' k H E E'. unfold get_occurrences in E, E'.
  destruct (assert_bounded p); try discriminate. destruct (assert_bounded (move_period (k * CYCLE) p)); try discriminate. cbn [rbind] in E, E'.
  destruct (matching_events evs c) as [l| |] eqn:M; try discriminate.
  destruct (matching_events (map (move_event (k * CYCLE)) evs) c) as [l'| |] eqn:M'; try discriminate. cbn [rbind] in E, E'.
  rewrite (matching_move _ _ _ _ _ M M') in E'. refine (rconcat_move _ _ _ _ l _ out out' E E').
  intros e y y' He. cbv beta. assert (Hin : In e evs) by (apply (matching_in _ _ _ M) in He; tauto).
  destruct (H e Hin) as (V & H1 & H2). destruct (cycle_turn k (e_recurrence e)) as [j Hj].
  apply (C129_event_moves F F' e p y y' j (k * CYCLE) Hj V H1 H2).
Qed.

(** ** cases *)
(** last Friday of every month from 2005-01-28 on, one date excepted, until 2006 *)
Definition last_friday : rule :=
  mkRule KMonthly 1 None (Some (VDate (ymd2ord 2006 1 1))) [VDate (ymd2ord 2005 3 25)] [] "lastweekday".
Example C129_rule_ex : let dt := ymd2ord 2005 1 28 * DAY + 9 * HOUR in let h := 1 * turn (r_kind last_friday) in
  validate last_friday = Ok tt
  /\ apply 300 last_friday dt (Some (VDate (ymd2ord 2005 6 1)))
     = ([ymd2ord 2005 1 28; ymd2ord 2005 2 25; ymd2ord 2005 4 29; ymd2ord 2005 5 27], GStop)
  /\ apply 300 (move_rule h last_friday) (dt + h * DAY) (Some (VDate (ymd2ord 2005 6 1 + h)))
     = ([ymd2ord 2405 1 28; ymd2ord 2405 2 25; ymd2ord 2405 4 29; ymd2ord 2405 5 27], GStop).
Proof. vm_compute. repeat split. Qed.

Example C129_finishes_ex : let dt := ymd2ord 2005 1 28 * DAY + 9 * HOUR in let h := 1 * turn (r_kind last_friday) in
  let e := ymd2ord 2005 6 1 in
  r_kind last_friday <> KNo /\ valid_rule last_friday /\ until_is_date last_friday
  /\ 1 <= dt_date dt <= MAXORD /\ 1 <= dt_date dt + h <= MAXORD /\ 1 <= e /\ 1 <= e + h
  /\ (forall d x, (d = dt_date dt /\ x = e) \/ (d = dt_date dt + h /\ x = e + h) ->
     year_of x + 16 * r_interval last_friday < MAXYEAR /\ year_of d < MAXYEAR
     /\ ~ (r_kind last_friday = KYearly /\ month_of d = 2 /\ day_of d = 29)).
Proof.
  cbv zeta. split; [discriminate|]. split; [vm_compute; reflexivity|]. split; [exact I|].
  split; [vm_compute; split; discriminate|]. split; [vm_compute; split; discriminate|]. split; [vm_compute; discriminate|]. split; [vm_compute; discriminate|].
  intros d x [[-> ->] | [-> ->]]; (split; [vm_compute; reflexivity|]; split; [vm_compute; reflexivity|]; intros [X _]; discriminate).
Qed.

(** the numbers of days are needed: the dates of a weekly rule are not those of
    the rule moved by one day, nor are those of a yearly rule after four years
    when a century lies between *)
Example C129_turn_needed :
  (let r := mkRule KWeekly 1 None None [] [0] "monthday" in let s := ymd2ord 2005 1 28 in
   fst (apply 30 r (s * DAY) (Some (VDate (s + 5)))) = [s; s + 3]
   /\ fst (apply 30 (move_rule 1 r) ((s + 1) * DAY) (Some (VDate (s + 1 + 5)))) = [s + 1; s + 3])
  /\ (let r := mkRule KYearly 1 None None [] [] "monthday" in let s := ymd2ord 1897 3 1 in
      fst (apply 30 r (s * DAY) (Some (VDate (s + 1461)))) = [s; s + 365; s + 730; s + 1095; s + 1460]
      /\ fst (apply 30 (move_rule (-1461) r) ((s - 1461) * DAY) (Some (VDate (s - 1461 + 1461))))
         = [s - 1461; s - 1461 + 365; s - 1461 + 730; s - 1461 + 1096; s - 1461 + 1461]).
Proof. vm_compute. repeat split. Qed.

Local Open Scope string_scope.
Definition a_meeting (u : string) (t : Z) (r : option rule) : event :=
  mkEvent u t (Some HOUR) "meeting" "" "" "CONFIRMED" r false [] false "PUBLIC" None (Some "ann") [("ann", "ACCEPTED")] [("ann", "CHAIR")].
Example C129_calendar_ex :
  let t := ymd2ord 2005 1 28 * DAY + 9 * HOUR in
  let evs := [a_meeting "a" t (Some last_friday); a_meeting "b" (t + 3 * DAY) None;
              a_meeting "c" t (Some (mkRule KYearly 1 (Some 3) None [] [] "monthday"))] in
  let p := (Some t, Some (t + 100 * DAY)) in let h := (-2) * CYCLE in
  (forall e, In e evs -> event_rule_ok e /\ 1 <= dt_date (e_dtstart e) /\ 1 <= dt_date (e_dtstart e) + h)
  /\ exists out out', get_occurrences 300 evs p None = Ok out
     /\ get_occurrences 300 (map (move_event h) evs) (move_period h p) None = Ok out'
     /\ map (fun o => (e_uid (o_original o), o_dtstart o)) out
        = [("a"%string, t); ("a"%string, t + 28 * DAY); ("a"%string, t + 91 * DAY); ("b"%string, t + 3 * DAY); ("c"%string, t)]
     /\ map (fun o => (year_of (dt_date (o_dtstart o)), month_of (dt_date (o_dtstart o)), day_of (dt_date (o_dtstart o)))) out'
        = [(1205, 1, 28); (1205, 2, 25); (1205, 4, 29); (1205, 1, 31); (1205, 1, 28)].
Proof.
  split.
  - intros e He. repeat destruct He as [<- | He]; try destruct He; vm_compute; repeat split; discriminate.
  - eexists. eexists. split; [vm_compute; reflexivity|]. split; [vm_compute; reflexivity|]. split; vm_compute; reflexivity.
Qed.

Print Assumptions C129_rule_moves.
Print Assumptions C129_rule_moves_finishes.
Print Assumptions C129_event_moves.
Print Assumptions C129_events_move.
Print Assumptions C129_calendar_repeats.
