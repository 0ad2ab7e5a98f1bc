(** Property theorems C20-C22, C26-C34, C57, C58: queries, free and busy time. *)
From Verif Require Import Base PyDate Recurrent Util UtilProofs CalTime TimeProofs Event Storage
  QueryProofs BlockProofs SpecRecur.
From Coq Require Import Sorting.Permutation.

(** a small storage for the examples: 2024-01-01 has ordinal 738886 *)
Definition at_ (n h : Z) : Z := (738886 + n) * DAY + h * HOUR.
Definition q_event (uid : string) (t d : Z) (r : option rule) (status : string) (transp : bool)
           (st : dict string) : event :=
  mkEvent uid t (Some d) "t" "" "" status r false ["work"%string] transp "PUBLIC" None
          (Some "alice"%string) st (map (fun kv => (fst kv, "REQ-PARTICIPANT"%string)) st).
Definition daily : rule := mkRule KDaily 1 None None [] [] "".
Definition ev1 := q_event "m1" (at_ 0 10) (2 * HOUR) None "CONFIRMED" false
                    [("alice", "ACCEPTED"); ("bob", "DECLINED")]%string.
Definition ev2 := q_event "m2" (at_ 0 16) HOUR (Some daily) "CONFIRMED" false [("bob", "ACCEPTED")]%string.
Definition ev3 := q_event "m3" (at_ 1 22) (4 * HOUR) None "CONFIRMED" true [("alice", "TENTATIVE")]%string.
Definition store := [ev1; ev2; ev3].
Definition alice : attendee := Some "alice"%string.
Definition bob : attendee := Some "bob"%string.

Lemma store_ok : evs_ok store.
Proof.
  intros e [<-|[<-|[<-|[]]]]; (split; [split; [vm_compute; reflexivity|];
    eexists; split; [reflexivity|]; vm_compute; intuition congruence|]); vm_compute; intuition congruence.
Qed.

(** a query without criteria filters nothing (stated here apart from the model's
    default criteria) *)
Definition no_criteria : criteria := {| c_attendees := None; c_status := None; c_role := None; c_organizer := None; c_categories := None |}.

Lemma no_criteria_all e : satisfies no_criteria e.
Proof. unfold satisfies, no_criteria. cbn. repeat split; intros; discriminate. Qed.

(** * C20 *)
Theorem C20_events_exact : forall evs p c l, get_events evs p c = Ok l ->
  forall e d, e_duration e = Some d ->
  (In e l <-> In e evs
     /\ satisfies (match c with Some c => c | None => no_criteria end) e
     /\ (forall b, fst p = Some b -> b < e_dtstart e + d)
     /\ (forall pe, snd p = Some pe -> e_dtstart e < pe)).
Proof. exact get_events_in. Qed.
Print Assumptions C20_events_exact.

Theorem C20_each_once : forall evs p c l, get_events evs p c = Ok l -> NoDup evs -> NoDup l.
Proof. exact get_events_nodup. Qed.
Print Assumptions C20_each_once.

Theorem C20_any_iteration_order : forall evs1 evs2 p c l1, Permutation evs1 evs2 ->
  get_events evs1 p c = Ok l1 -> exists l2, get_events evs2 p c = Ok l2 /\ Permutation l1 l2.
Proof. exact get_events_perm. Qed.
Print Assumptions C20_any_iteration_order.

Theorem C20_unbounded : forall evs c l, get_events evs (None, None) c = Ok l ->
  forall e, In e l <-> In e evs /\ satisfies (match c with Some c => c | None => no_criteria end) e.
Proof. exact get_events_unbounded. Qed.
Print Assumptions C20_unbounded.

Theorem C20_always_answers : forall evs p c,
  crit_ok (match c with Some c => c | None => no_criteria end) -> (forall e, In e evs -> event_ok e) ->
  exists l, get_events evs p c = Ok l.
Proof. exact get_events_total. Qed.
Print Assumptions C20_always_answers.

Example C20_case : get_events store (Some (at_ 1 0), Some (at_ 3 0)) None = Ok [ev3]
  /\ get_events store (None, None) (Some (mk_criteria (AOne bob) (Some "ACCEPTED"%string) None None None)) = Ok [ev2]
  /\ get_events store (Some (at_ 0 11), None) None = Ok [ev1; ev2; ev3].
Proof. vm_compute. auto. Qed.

(** * C21 *)
(** the dates of an occurrence are stated by [occurs]: the event's own start, or
    the event's time of day on a date selected by its rule (see C01-C14 for what
    a rule selects) *)
Theorem C21_occurrences_exact : forall F evs b pe c l, evs_ok evs ->
  get_occurrences F evs (Some b, Some pe) c = Ok l ->
  forall o, In o l <-> exists e t d, In e evs
     /\ satisfies (match c with Some c => c | None => no_criteria end) e
     /\ e_duration e = Some d
     /\ o = mkOcc t (Some d) e /\ occurs e t /\ b < t + d /\ t < pe.
Proof. exact get_occurrences_in. Qed.
Print Assumptions C21_occurrences_exact.

Theorem C21_each_once : forall F evs p c l, evs_ok evs -> NoDup evs ->
  get_occurrences F evs p c = Ok l -> NoDup l.
Proof. exact get_occurrences_nodup. Qed.
Print Assumptions C21_each_once.

Theorem C21_any_iteration_order : forall F evs1 evs2 p c l1, Permutation evs1 evs2 ->
  get_occurrences F evs1 p c = Ok l1 -> exists l2, get_occurrences F evs2 p c = Ok l2 /\ Permutation l1 l2.
Proof. exact get_occurrences_perm. Qed.
Print Assumptions C21_any_iteration_order.

Theorem C21_terminates : forall evs b pe c, evs_ok evs ->
  crit_ok (match c with Some c => c | None => no_criteria end) -> 1 <= dt_date pe ->
  (forall e, In e evs -> expand_room e pe) ->
  exists N, forall F, (N <= F)%nat -> exists l, get_occurrences F evs (Some b, Some pe) c = Ok l.
Proof. exact get_occurrences_total. Qed.
Print Assumptions C21_terminates.

Example C21_case : evs_ok store /\ get_occurrences 50 store (Some (at_ 1 0), Some (at_ 3 0)) None
  = Ok [mkOcc (at_ 1 16) (Some HOUR) ev2; mkOcc (at_ 2 16) (Some HOUR) ev2;
        mkOcc (at_ 1 22) (Some (4 * HOUR)) ev3].
Proof. split; [exact store_ok|]. vm_compute. reflexivity. Qed.

Example C21_terminates_case : forall e, In e store -> expand_room e (at_ 3 0).
Proof.
  intros e [<-|[<-|[<-|[]]]]; unfold expand_room; cbn [e_recurrence ev1 ev2 ev3 q_event]; try exact I.
  split; [intros _; vm_compute; intuition congruence|]. intros d E. injection E as <-. vm_compute. reflexivity.
Qed.

(** * C22 *)
(** Partial: events that take some time. *)
Theorem C22_events_in_day_partial : forall evs atts D l,
  calendar_events_in_day evs atts D None = Ok l ->
  forall e d, e_duration e = Some d -> 0 < d ->
  (In e l <-> In e evs /\ involves e atts /\ exists t, dt_date t = D /\ e_dtstart e <= t < e_dtstart e + d).
Proof. exact events_in_day_exact. Qed.
Print Assumptions C22_events_in_day_partial.

Theorem C22_visible_somewhere_partial : forall evs atts e d,
  (forall e, In e evs -> event_ok e) -> ~ In None atts ->
  In e evs -> involves e atts -> e_duration e = Some d -> 0 < d -> dt_date (e_dtstart e) < MAXORD ->
  exists l, calendar_events_in_day evs atts (dt_date (e_dtstart e)) None = Ok l /\ In e l.
Proof.
  intros evs atts e d OK NN He Hi D P LT.
  destruct (events_in_day_total evs atts (dt_date (e_dtstart e)) OK NN) as [l L].
  { split; [|exact LT]. exact (proj1 (proj1 (dt_ok_date _) (proj1 (OK e He)))). }
  exists l. split; [exact L|]. apply (events_in_day_exact _ _ _ _ L e d D P).
  split; [exact He|]. split; [exact Hi|]. exists (e_dtstart e). split; [reflexivity|]. lia.
Qed.
Print Assumptions C22_visible_somewhere_partial.

(** a day lists a piece of an event exactly when the event goes on at some
    instant of that day, and the pieces cover exactly those instants *)
Theorem C22_occurrences_in_day_partial : forall F evs atts D l, evs_ok evs -> positive evs ->
  calendar_occurrences_in_day F evs atts D None = Ok l ->
  (forall e, (exists o, In o l /\ o_original o = e) <->
     In e evs /\ involves e atts /\ exists t, dt_date t = D /\ happens e t)
  /\ (forall e t, (exists o, In o l /\ o_original o = e /\ occ_covers o t) <->
     In e evs /\ involves e atts /\ dt_date t = D /\ happens e t).
Proof. exact occurrences_in_day_exact. Qed.
Print Assumptions C22_occurrences_in_day_partial.

Example C22_case : evs_ok store /\ positive store
  /\ calendar_events_in_day store [alice] 738887 None = Ok [ev3]
  /\ calendar_occurrences_in_day 50 store [alice; bob] 738888 None
     = Ok [mkOcc (at_ 2 16) (Some HOUR) ev2; mkOcc (at_ 2 0) (Some (2 * HOUR)) ev3].
Proof.
  split; [exact store_ok|]. split; [|vm_compute; auto].
  intros e d [<-|[<-|[<-|[]]]] E; injection E as <-; reflexivity.
Qed.

(** an instantaneous event at midnight is in no day's listing *)
Theorem C22_refuted : exists e, event_ok e /\ involves e [alice]
  /\ forall D l, calendar_events_in_day [e] [alice] D None = Ok l -> ~ In e l.
Proof.
  exists (q_event "z" (at_ 0 0) 0 None "CONFIRMED" false [("alice", "ACCEPTED")]%string).
  split; [|split].
  - split; [vm_compute; reflexivity|]. exists 0. vm_compute. intuition congruence.
  - exists "alice"%string, "ACCEPTED"%string. split; [now left|reflexivity].
  - intros D l E H. unfold calendar_events_in_day in E.
    destruct (day_period D) as [p| |] eqn:DP; try discriminate. cbn [rbind] in E.
    apply day_period_inv in DP as [-> _].
    pose proof (calendar_events_exact _ _ _ None l I ltac:(discriminate) E) as X.
    destruct (proj1 (X (q_event "z" (at_ 0 0) 0 None "CONFIRMED" false [("alice", "ACCEPTED")]%string) 0 eq_refl) H)
      as (_ & _ & T1 & T2).
    specialize (T1 _ eq_refl). specialize (T2 _ eq_refl). cbn [e_dtstart q_event] in *.
    unfold at_, combine, DAY, HOUR in *. lia.
Qed.
Print Assumptions C22_refuted.

(** * C26 *)
(** who blocks: [busy evs atts t] says that one of the attendees takes part in an
    event that goes on at [t], is not transparent, is not marked 'CANCELED', and
    that they have neither declined nor delegated *)
Theorem C26_blocked_exact : forall F evs atts begins ends tb te l,
  evs_ok evs -> dt_ok begins = true -> dt_ok ends = true -> 0 <= tb < DAY /\ 0 <= te < DAY ->
  get_blocked F evs atts begins ends tb te = Ok l ->
  forall t, begins <= t < ends ->
  ((exists s e, In (s, e) l /\ s <= t < e) <->
   (dt_time t < tb \/ te <= dt_time t)
   \/ exists i e, In (Some i) atts /\ In e evs
        /\ (e_transparent e = false /\ e_status e <> "CANCELED"%string
            /\ exists st, dget (e_state e) i = Some st /\ st <> "DECLINED"%string /\ st <> "DELEGATED"%string)
        /\ happens e t).
Proof. exact get_blocked_exact. Qed.
Print Assumptions C26_blocked_exact.

Theorem C26_terminates : forall evs atts begins ends tb te, evs_ok evs -> ~ In None atts ->
  dt_ok begins = true -> dt_ok ends = true -> begins < MAXORD * DAY -> ends < MAXORD * DAY -> begins < ends ->
  0 <= tb < DAY /\ 0 <= te < DAY -> (forall e, In e evs -> expand_room e ends) ->
  exists N, forall F, (N <= F)%nat -> exists l, get_blocked F evs atts begins ends tb te = Ok l.
Proof. exact get_blocked_total. Qed.
Print Assumptions C26_terminates.

Example C26_case : evs_ok store /\ (0 <= 9 * HOUR <= 17 * HOUR /\ 17 * HOUR < DAY)
  /\ get_blocked 50 store [alice; bob] (at_ 0 0) (at_ 2 0) (9 * HOUR) (17 * HOUR)
     = Ok [(at_ 0 0, at_ 0 9); (at_ 0 10, at_ 0 12); (at_ 0 16, at_ 1 9); (at_ 1 16, at_ 2 0)].
Proof. split; [exact store_ok|]. vm_compute. intuition congruence. Qed.

(** * C27 *)
Theorem C27_blocked_sorted : forall F evs atts begins ends tb te l,
  evs_ok evs -> dt_ok begins = true -> dt_ok ends = true -> 0 <= tb < DAY /\ 0 <= te < DAY ->
  get_blocked F evs atts begins ends tb te = Ok l ->
  gapped l /\ Forall (fun x => fst x <= snd x) l.
Proof. exact get_blocked_form. Qed.
Print Assumptions C27_blocked_sorted.

(** the hypotheses are met by the run of [C26_case] *)
Example C27_case : gapped [(at_ 0 0, at_ 0 9); (at_ 0 10, at_ 0 12); (at_ 0 16, at_ 1 9); (at_ 1 16, at_ 2 0)].
Proof. vm_compute. auto. Qed.

(** * C28 *)
(** Partial: for every period the free periods cover exactly the free instants
    of the period.  Missing: that they stay inside it, which is false. *)
Theorem C28_free_instants_partial : forall F evs atts begins ends tb te l,
  evs_ok evs -> dt_ok begins = true -> dt_ok ends = true -> begins < ends -> 0 <= tb < DAY /\ 0 <= te < DAY ->
  get_free F evs atts begins ends tb te None = Ok l ->
  forall t, begins <= t < ends -> (covers l t <-> ~ outside tb te t /\ ~ busy evs atts t).
Proof. exact get_free_covers. Qed.
Print Assumptions C28_free_instants_partial.

(** Partial: the whole claim for periods that begin before the window opens and
    end at a midnight. *)
Theorem C28_whole_days_partial : forall F evs atts begins ends tb te l,
  evs_ok evs -> dt_ok begins = true -> dt_ok ends = true -> begins < ends -> 0 <= tb < DAY /\ 0 <= te < DAY ->
  dt_time begins <= tb -> dt_time ends = 0 ->
  get_free F evs atts begins ends tb te None = Ok l ->
  Forall (fun x => fst x < snd x) l
  /\ ordered l
  /\ (forall x, In x l -> begins <= fst x /\ snd x <= ends)
  /\ (forall t, covers l t <-> begins <= t < ends /\ ~ outside tb te t /\ ~ busy evs atts t).
Proof. exact get_free_exact. Qed.
Print Assumptions C28_whole_days_partial.

(** Partial: the same for periods that end after the window closes, when a
    minimal duration (of zero or more) is asked for. *)
Theorem C28_after_closing_partial : forall F evs atts begins ends tb te m l,
  evs_ok evs -> dt_ok begins = true -> dt_ok ends = true -> begins < ends -> 0 <= tb < DAY /\ 0 <= te < DAY ->
  dt_time begins <= tb -> te <= dt_time ends -> 0 < dt_time ends -> 0 <= m ->
  get_free F evs atts begins ends tb te (Some m) = Ok l ->
  exists G,
    (Forall nonempty G /\ ordered G
     /\ (forall x, In x G -> begins <= fst x /\ snd x <= ends)
     /\ (forall t, covers G t <-> begins <= t < ends /\ ~ outside tb te t /\ ~ busy evs atts t))
    /\ l = filter (fun x => m <=? snd x - fst x) G.
Proof. exact get_free_exact2. Qed.
Print Assumptions C28_after_closing_partial.

Example C28_case :
  dt_time (at_ 0 0) <= 9 * HOUR /\ dt_time (at_ 2 0) = 0 /\ 17 * HOUR <= dt_time (at_ 1 18)
  /\ get_free 50 store [alice; bob] (at_ 0 0) (at_ 2 0) (9 * HOUR) (17 * HOUR) None
     = Ok [(at_ 0 9, at_ 0 10); (at_ 0 12, at_ 0 16); (at_ 1 9, at_ 1 16)]
  /\ get_free 50 store [alice; bob] (at_ 0 0) (at_ 1 18) (9 * HOUR) (17 * HOUR) (Some (2 * HOUR))
     = Ok [(at_ 0 12, at_ 0 16); (at_ 1 9, at_ 1 16)].
Proof. vm_compute. intuition congruence. Qed.

(** asked from 14:00 on, it offers the whole morning; asked until 12:00, it
    offers time after 12:00 and a period that ends before it starts *)
Theorem C28_refuted :
  (exists begins ends tb te l x, begins < ends /\ 0 <= tb <= te /\ te < DAY
     /\ get_free 50 [] [alice] begins ends tb te None = Ok l /\ In x l /\ fst x < begins)
  /\ (exists begins ends tb te l x, begins < ends /\ 0 <= tb <= te /\ te < DAY
     /\ get_free 50 [] [alice] begins ends tb te None = Ok l /\ In x l /\ ends < snd x)
  /\ (exists begins ends tb te l x, begins < ends /\ 0 <= tb <= te /\ te < DAY
     /\ get_free 50 [] [alice] begins ends tb te None = Ok l /\ In x l /\ snd x < fst x).
Proof.
  split; [|split].
  - exists (at_ 0 14), (at_ 1 0), (9 * HOUR), (17 * HOUR), [(at_ 0 9, at_ 0 17)], (at_ 0 9, at_ 0 17).
    vm_compute. intuition congruence.
  - exists (at_ 0 0), (at_ 0 12), (9 * HOUR), (17 * HOUR), [(at_ 0 9, at_ 0 17); (at_ 1 0, at_ 0 12)], (at_ 0 9, at_ 0 17).
    vm_compute. intuition congruence.
  - exists (at_ 0 0), (at_ 0 12), (9 * HOUR), (17 * HOUR), [(at_ 0 9, at_ 0 17); (at_ 1 0, at_ 0 12)], (at_ 1 0, at_ 0 12).
    vm_compute. intuition congruence.
Qed.
Print Assumptions C28_refuted.

(** * C29 *)
Theorem C29_minimal_filters : forall F evs atts begins ends tb te m,
  get_free F evs atts begins ends tb te (Some m)
  = match get_free F evs atts begins ends tb te None with
    | Ok l => Ok (filter (fun x => m <=? snd x - fst x) l)
    | Raise x => Raise x
    | OutOfFuel => OutOfFuel
    end.
Proof. exact get_free_minimal. Qed.
Print Assumptions C29_minimal_filters.

Example C29_case :
  get_free 50 store [alice; bob] (at_ 0 0) (at_ 2 0) (9 * HOUR) (17 * HOUR) (Some (5 * HOUR))
  = Ok [(at_ 1 9, at_ 1 16)].
Proof. vm_compute. reflexivity. Qed.

(** * C30 *)
Theorem C30_more_blocked : forall F evs a1 a2 begins ends tb te l1 l2, incl a1 a2 ->
  evs_ok evs -> dt_ok begins = true -> dt_ok ends = true -> 0 <= tb < DAY /\ 0 <= te < DAY ->
  get_blocked F evs a1 begins ends tb te = Ok l1 -> get_blocked F evs a2 begins ends tb te = Ok l2 ->
  forall t, begins <= t < ends -> covers l1 t -> covers l2 t.
Proof.
  intros F evs a1 a2 begins ends tb te l1 l2 I OK OB OE W E1 E2 t T.
  rewrite (get_blocked_exact _ _ _ _ _ _ _ _ OK OB OE W E1 t T), (get_blocked_exact _ _ _ _ _ _ _ _ OK OB OE W E2 t T).
  intros [H|H]; [now left|right]. exact (busy_mono _ _ _ _ I H).
Qed.
Print Assumptions C30_more_blocked.

Theorem C30_less_free : forall F evs a1 a2 begins ends tb te l1 l2, incl a1 a2 ->
  evs_ok evs -> dt_ok begins = true -> dt_ok ends = true -> begins < ends -> 0 <= tb < DAY /\ 0 <= te < DAY ->
  get_free F evs a1 begins ends tb te None = Ok l1 -> get_free F evs a2 begins ends tb te None = Ok l2 ->
  forall t, begins <= t < ends -> covers l2 t -> covers l1 t.
Proof.
  intros F evs a1 a2 begins ends tb te l1 l2 I OK OB OE BE W E1 E2 t T.
  rewrite (get_free_covers _ _ _ _ _ _ _ _ OK OB OE BE W E1 t T), (get_free_covers _ _ _ _ _ _ _ _ OK OB OE BE W E2 t T).
  intros [H1 H2]. split; [exact H1|]. intros H. apply H2. exact (busy_mono _ _ _ _ I H).
Qed.
Print Assumptions C30_less_free.

Theorem C30_order_and_repetition : forall F evs a1 a2 begins ends tb te m,
  (forall x, In x a1 <-> In x a2) ->
  (forall l, get_blocked F evs a1 begins ends tb te = Ok l -> get_blocked F evs a2 begins ends tb te = Ok l)
  /\ (forall l, get_free F evs a1 begins ends tb te m = Ok l -> get_free F evs a2 begins ends tb te m = Ok l).
Proof.
  intros F evs a1 a2 begins ends tb te m H. split; intros l E.
  - exact (get_blocked_same _ _ _ _ _ _ _ _ _ H E).
  - exact (get_free_same _ _ _ _ _ _ _ _ _ _ H E).
Qed.
Print Assumptions C30_order_and_repetition.

Example C30_case : incl [alice] [bob; alice; bob]
  /\ get_free 50 store [alice] (at_ 0 0) (at_ 2 0) (9 * HOUR) (17 * HOUR) None
     = Ok [(at_ 0 9, at_ 0 10); (at_ 0 12, at_ 0 17); (at_ 1 9, at_ 1 17)]
  /\ get_free 50 store [bob; alice; bob] (at_ 0 0) (at_ 2 0) (9 * HOUR) (17 * HOUR) None
     = Ok [(at_ 0 9, at_ 0 10); (at_ 0 12, at_ 0 16); (at_ 1 9, at_ 1 16)].
Proof. split; [intros x [<-|[]]; right; now left|]. vm_compute. auto. Qed.

(** * C31 *)
(** Partial: the spelling 'CANCELED' only. *)
Theorem C31_canceled_partial : forall F evs1 evs2 x atts begins ends tb te l1 l2,
  evs_ok (evs1 ++ x :: evs2) -> dt_ok begins = true -> dt_ok ends = true -> 0 <= tb < DAY /\ 0 <= te < DAY ->
  e_status x = "CANCELED"%string ->
  get_blocked F (evs1 ++ x :: evs2) atts begins ends tb te = Ok l1 ->
  get_blocked F (evs1 ++ evs2) atts begins ends tb te = Ok l2 ->
  forall t, begins <= t < ends -> (covers l1 t <-> covers l2 t).
Proof.
  intros F evs1 evs2 x atts begins ends tb te l1 l2 OK OB OE W ST E1 E2 t T.
  assert (OK2 : evs_ok (evs1 ++ evs2)).
  { intros e H. apply OK. apply in_app_iff in H. apply in_app_iff. cbn. tauto. }
  rewrite (get_blocked_exact _ _ _ _ _ _ _ _ OK OB OE W E1 t T), (get_blocked_exact _ _ _ _ _ _ _ _ OK2 OB OE W E2 t T).
  enough (B : busy (evs1 ++ x :: evs2) atts t <-> busy (evs1 ++ evs2) atts t) by (rewrite B; tauto).
  split; intros (i & e & H1 & H2 & H3 & H4); exists i, e; (split; [exact H1|split; [|split; [exact H3|exact H4]]]);
    apply in_app_iff; apply in_app_iff in H2; cbn in *.
  - destruct H2 as [H2|[<-|H2]]; auto. destruct H3 as (_ & H3 & _). contradiction.
  - tauto.
Qed.
Print Assumptions C31_canceled_partial.

(** the spelling used by iCalendar, and by the documentation of createEvent *)
Definition ev_cancelled (status : string) : event :=
  q_event "x" (at_ 0 10) (2 * HOUR) None status false [("alice", "ACCEPTED")]%string.

Theorem C31_refuted : exists l,
  get_blocked 50 [ev_cancelled "CANCELLED"] [alice] (at_ 0 9) (at_ 0 17) (9 * HOUR) (17 * HOUR) = Ok l
  /\ covers l (at_ 0 11).
Proof.
  exists [(at_ 0 0, at_ 0 9); (at_ 0 10, at_ 0 12); (at_ 0 17, at_ 1 0)]. split; [vm_compute; reflexivity|].
  exists (at_ 0 10), (at_ 0 12). split; [right; now left|]. unfold at_, DAY, HOUR. lia.
Qed.
Print Assumptions C31_refuted.

Example C31_case : get_blocked 50 [ev_cancelled "CANCELED"] [alice] (at_ 0 9) (at_ 0 17) (9 * HOUR) (17 * HOUR)
  = Ok [(at_ 0 0, at_ 0 9); (at_ 0 17, at_ 1 0)].
Proof. vm_compute. reflexivity. Qed.

(** * C32 *)
Theorem C32_criteria_match : forall c e b, match_criteria c e = Ok b ->
  (b = true <->
   (forall cats, c_categories c = Some cats -> exists x, In x cats /\ In x (e_categories e))
   /\ (forall o, c_organizer c = Some o -> exists i, o = Some i /\ e_organizer e = Some i)
   /\ (forall l, c_attendees c = Some l -> exists i st, In (Some i) l /\ dget (e_state e) i = Some st
        /\ (forall s, c_status c = Some s -> st = s)
        /\ (forall r, c_role c = Some r -> dget (e_role e) i = Some r))).
Proof. exact match_spec. Qed.
Print Assumptions C32_criteria_match.

Theorem C32_always_answers : forall c e,
  c_organizer c <> Some None /\ (forall l, c_attendees c = Some l -> ~ In None l) ->
  exists b, match_criteria c e = Ok b.
Proof. exact match_total. Qed.
Print Assumptions C32_always_answers.

Example C32_case :
  match_criteria (mk_criteria (AMany [bob; alice]) (Some "ACCEPTED"%string) (Some "REQ-PARTICIPANT"%string)
                   (Some ["home"; "work"]%string) (Some alice)) ev1 = Ok true
  /\ match_criteria (mk_criteria (AOne bob) (Some "ACCEPTED"%string) None None None) ev1 = Ok false.
Proof. vm_compute. auto. Qed.

(** * C33 *)
(** Partial: an argument takes effect where the original leaves the criterion
    open; what the original sets is kept. *)
Theorem C33_clone_partial : forall c a st ro cats org,
  let c' := clone c a st ro cats org in
  (c_attendees c = None -> c_attendees c' = match a with ANone => None | AOne x => Some [x] | AMany l => Some l end)
  /\ (c_status c = None -> c_status c' = st)
  /\ (c_role c = None -> c_role c' = ro)
  /\ (c_categories c = None -> c_categories c' = cats)
  /\ (c_organizer c = None -> c_organizer c' = org)
  /\ (forall x l, c_attendees c = Some (x :: l) -> a = ANone -> c_attendees c' = Some (x :: l))
  /\ (forall s, c_status c = Some s -> s <> ""%string -> st = None -> c_status c' = Some s)
  /\ (forall s, c_role c = Some s -> s <> ""%string -> ro = None -> c_role c' = Some s)
  /\ (forall x l, c_categories c = Some (x :: l) -> cats = None -> c_categories c' = Some (x :: l))
  /\ (forall o, c_organizer c = Some o -> org = None -> c_organizer c' = Some o).
Proof.
  intros c a st ro cats org c'. destruct (clone_fields c a st ro cats org) as (E1 & E2 & E3 & E4 & E5). fold c' in E1, E2, E3, E4, E5.
  split; [intros H; now rewrite E1, H|]. split; [intros H; now rewrite E2, H|]. split; [intros H; now rewrite E3, H|].
  split; [intros H; now rewrite E4, H|]. split; [intros H; now rewrite E5, H|].
  split; [intros x l H _; now rewrite E1, H|].
  split; [intros s H N _; rewrite E2, H; now destruct s|].
  split; [intros s H N _; rewrite E3, H; now destruct s|].
  split; [intros x l H _; now rewrite E4, H|]. intros o H _. now rewrite E5, H.
Qed.
Print Assumptions C33_clone_partial.

Example C33_case :
  clone (mk_criteria ANone (Some "ACCEPTED"%string) None None None) (AOne bob) None (Some "CHAIR"%string) None None
  = mkCrit (Some [bob]) (Some "ACCEPTED"%string) (Some "CHAIR"%string) None None.
Proof. reflexivity. Qed.

(** exactly: what the original sets (to something not empty) wins, the argument
    counts otherwise *)
Theorem C33_clone_exact : forall c a st ro cats org,
  let c' := clone c a st ro cats org in
  (forall x l, c_attendees c = Some (x :: l) -> c_attendees c' = Some (x :: l))
  /\ (forall s, c_status c = Some s -> s <> ""%string -> c_status c' = Some s)
  /\ (forall s, c_role c = Some s -> s <> ""%string -> c_role c' = Some s)
  /\ (forall x l, c_categories c = Some (x :: l) -> c_categories c' = Some (x :: l))
  /\ (forall o, c_organizer c = Some o -> c_organizer c' = Some o)
  /\ (c_attendees c = None \/ c_attendees c = Some [] ->
        c_attendees c' = match a with ANone => None | AOne x => Some [x] | AMany l => Some l end)
  /\ (c_status c = None \/ c_status c = Some ""%string -> c_status c' = st)
  /\ (c_role c = None \/ c_role c = Some ""%string -> c_role c' = ro)
  /\ (c_categories c = None \/ c_categories c = Some [] -> c_categories c' = cats)
  /\ (c_organizer c = None -> c_organizer c' = org).
Proof.
  intros c a st ro cats org c'. destruct (clone_fields c a st ro cats org) as (E1 & E2 & E3 & E4 & E5). fold c' in E1, E2, E3, E4, E5.
  split; [intros x l H; now rewrite E1, H|]. split; [intros s H N; rewrite E2, H; destruct s; [congruence|reflexivity]|].
  split; [intros s H N; rewrite E3, H; destruct s; [congruence|reflexivity]|]. split; [intros x l H; now rewrite E4, H|].
  split; [intros o H; now rewrite E5, H|]. split; [intros [H|H]; now rewrite E1, H|]. split; [intros [H|H]; now rewrite E2, H|].
  split; [intros [H|H]; now rewrite E3, H|]. split; [intros [H|H]; now rewrite E4, H|]. intros H. now rewrite E5, H.
Qed.
Print Assumptions C33_clone_exact.

(** the documentation promises the opposite where both are given *)
Theorem C33_refuted : exists c st,
  c_status (clone c ANone (Some st) None None None) <> Some st.
Proof.
  exists (mk_criteria ANone (Some "ACCEPTED"%string) None None None), "DECLINED"%string. vm_compute. congruence.
Qed.
Print Assumptions C33_refuted.

(** * C34 *)
(** Partial: criteria that name no attendees themselves. *)
Theorem C34_calendar_events_partial : forall evs atts p c l, no_attendees c ->
  calendar_events evs atts p c = Ok l ->
  forall e, In e l -> In e evs /\ exists i st, In (Some i) atts /\ dget (e_state e) i = Some st.
Proof. exact calendar_events_involve. Qed.
Print Assumptions C34_calendar_events_partial.

Theorem C34_calendar_occurrences_partial : forall F evs atts b pe c l, evs_ok evs -> no_attendees c ->
  calendar_occurrences F evs atts (Some b, Some pe) c = Ok l ->
  forall o, In o l -> In (o_original o) evs
    /\ exists i st, In (Some i) atts /\ dget (e_state (o_original o)) i = Some st.
Proof. exact calendar_occurrences_involve. Qed.
Print Assumptions C34_calendar_occurrences_partial.

(** exactly the events of the calendar's attendees that satisfy the criteria *)
Theorem C34_calendar_exact_partial : forall evs atts p c l, no_attendees c -> (forall c', c = Some c' -> plain c') ->
  calendar_events evs atts p c = Ok l ->
  forall e d, e_duration e = Some d ->
  (In e l <-> In e evs /\ satisfies (narrowed c atts) e /\ touches (e_dtstart e) d p).
Proof. exact calendar_events_exact. Qed.
Print Assumptions C34_calendar_exact_partial.

(** adding and removing attendees *)
Theorem C34_add_attendee : forall evs atts i l e d st,
  calendar_events evs (Some i :: atts) (None, None) None = Ok l ->
  In e evs -> e_duration e = Some d -> dget (e_state e) i = Some st -> In e l.
Proof.
  intros evs atts i l e d st E H D A.
  apply (calendar_events_exact _ _ _ None l I ltac:(discriminate) E e d D).
  split; [exact H|]. split; [|split; discriminate]. apply narrowed_none. exists i, st. split; [now left|exact A].
Qed.
Print Assumptions C34_add_attendee.

Theorem C34_remove_attendee : forall evs atts l e p,
  calendar_events evs atts p None = Ok l ->
  (forall i, In (Some i) atts -> dget (e_state e) i = None) -> ~ In e l.
Proof.
  intros evs atts l e p E N H. destruct (calendar_events_involve _ _ _ None l I E e H) as (_ & i & st & H1 & H2).
  unfold attends in H2. rewrite (N i H1) in H2. discriminate.
Qed.
Print Assumptions C34_remove_attendee.

(** the same for one attendee *)
Theorem C34_attendee_events_partial : forall evs i p c l, no_attendees c ->
  attendee_events evs (Some i) p c = Ok l ->
  forall e, In e l -> In e evs /\ exists st, dget (e_state e) i = Some st.
Proof.
  intros evs i p c l N E e H. destruct (calendar_events_involve evs [Some i] p c l N E e H) as (H1 & j & st & [J|[]] & H2).
  split; [exact H1|]. exists st. assert (i = j) by congruence. now subst.
Qed.
Print Assumptions C34_attendee_events_partial.

Example C34_case : no_attendees (Some (mk_criteria ANone None None (Some ["work"%string]) None))
  /\ calendar_events store [alice] (None, None) (Some (mk_criteria ANone None None (Some ["work"%string]) None))
     = Ok [ev1; ev3]
  /\ calendar_events store [alice; bob] (None, None) None = Ok [ev1; ev2; ev3].
Proof. split; [now left|]. vm_compute. auto. Qed.

(** criteria that name attendees replace the calendar's own *)
Theorem C34_refuted : exists evs atts c l e,
  calendar_events evs atts (None, None) (Some c) = Ok l /\ In e l
  /\ forall i, In (Some i) atts -> dget (e_state e) i = None.
Proof.
  exists store, [alice], (mk_criteria (AOne bob) (Some "ACCEPTED"%string) None None None), [ev2], ev2.
  split; [vm_compute; reflexivity|]. split; [now left|]. intros i [X|[]]. injection X as <-. reflexivity.
Qed.
Print Assumptions C34_refuted.

(** ** What criteria given to a calendar or an attendee mean *)
(** Values of the criteria that are set and not empty count; where they name no
    attendees, or no organizer, those of the query ([atts], [org]) apply. *)
Definition in_force {A} (own given : option A) (empty : A -> Prop) (v : A) : Prop :=
  (own = Some v /\ ~ empty v) \/ ((own = None \/ exists w, own = Some w /\ empty w) /\ given = Some v).

Definition wanted (c : option criteria) (atts : option (list attendee)) (org : option attendee) (e : event) : Prop :=
  let c := match c with Some c => c | None => no_criteria end in
  (forall cats, c_categories c = Some cats -> cats <> [] -> exists k, In k cats /\ In k (e_categories e))
  /\ (forall o, in_force (c_organizer c) org (fun _ => False) o -> exists i, o = Some i /\ e_organizer e = Some i)
  /\ (forall l, in_force (c_attendees c) atts (fun l => l = []) l ->
       exists i st, In (Some i) l /\ dget (e_state e) i = Some st
        /\ (forall s, c_status c = Some s -> s <> ""%string -> st = s)
        /\ (forall r, c_role c = Some r -> r <> ""%string -> dget (e_role e) i = Some r)).

Lemma or_str_none a x : or_str a None = Some x <-> a = Some x /\ x <> ""%string.
Proof.
  destruct a as [[|]|]; cbn; (split; [intros X; try discriminate|intros [X Y]]); try congruence.
  injection X as <-. split; [reflexivity|discriminate].
Qed.

Lemma or_list_iff {A} (a b : option (list A)) x : or_list a b = Some x <-> in_force a b (fun l => l = []) x.
Proof.
  unfold in_force. destruct a as [[|h t]|]; cbn; split.
  - intros ->. right. split; [right; eauto|reflexivity].
  - intros [[X Y]|[_ X]]; [|exact X]. exfalso. apply Y. congruence.
  - intros X. left. split; [exact X|]. intros ->. discriminate.
  - intros [[X _]|[[X|(w & X & ->)] _]]; [exact X|discriminate|discriminate].
  - intros ->. right. auto.
  - intros [[X _]|[_ X]]; [discriminate|exact X].
Qed.

Lemma or_obj_iff {A} (a b : option A) x : or_obj a b = Some x <-> in_force a b (fun _ => False) x.
Proof.
  unfold in_force. destruct a as [h|]; cbn; split.
  - intros X. left. auto.
  - intros [[X _]|[[X|(w & X & [])] _]]; [exact X|discriminate].
  - intros X. right. auto.
  - intros [[X _]|[_ X]]; [discriminate|exact X].
Qed.

Lemma satisfies_wanted c a org e : satisfies (clone c a None None None org) e <-> wanted (Some c) (norm_attendees a) org e.
Proof.
  unfold satisfies, wanted, clone. cbn [c_categories c_organizer c_attendees c_status c_role].
  assert (CA : forall x, or_list (c_categories c) None = Some x <-> c_categories c = Some x /\ x <> []).
  { intros x. rewrite or_list_iff. unfold in_force. split; [intros [X|[_ X]]; [exact X|discriminate]|tauto]. }
  split; intros (H1 & H2 & H3); (split; [|split]).
  - intros cats X Y. apply H1, CA; auto.
  - intros o X. apply H2, or_obj_iff, X.
  - intros l X. destruct (H3 l) as (i & st & Y1 & Y2 & Y3 & Y4); [now apply or_list_iff|]. exists i, st. split; [exact Y1|]. split; [exact Y2|].
    split; intros s Z1 Z2; [apply Y3|apply Y4]; apply or_str_none; auto.
  - intros cats X. apply CA in X as [X Y]. now apply H1.
  - intros o X. apply H2, or_obj_iff, X.
  - intros l X. destruct (H3 l) as (i & st & Y1 & Y2 & Y3 & Y4); [now apply or_list_iff|]. exists i, st. split; [exact Y1|]. split; [exact Y2|].
    split; intros s Z; apply or_str_none in Z as [Z1 Z2]; auto.
Qed.

Lemma wanted_none atts org e : wanted None atts org e <-> wanted (Some null_criteria) atts org e.
Proof. reflexivity. Qed.

Lemma satisfies_given a org e : satisfies (mk_criteria a None None None org) e <-> wanted None (norm_attendees a) org e.
Proof. rewrite wanted_none, <- satisfies_wanted. reflexivity. Qed.

Lemma satisfies_restrict c atts e : satisfies (restrict_attendees c atts) e <-> wanted c (Some atts) None e.
Proof. destruct c as [c|]; [apply (satisfies_wanted c (AMany atts) None e)|apply (satisfies_given (AMany atts) None e)]. Qed.

(** the part of an event that lies in a period; without a begin the duration does not matter *)
Definition in_time (e : event) (p : period) : Prop :=
  (forall b, fst p = Some b -> exists d, e_duration e = Some d /\ b < e_dtstart e + d)
  /\ (forall x, snd p = Some x -> e_dtstart e < x).

Lemma get_events_exact evs p c l : get_events evs p c = Ok l ->
  forall e, In e l <-> In e evs /\ satisfies (the_criteria c) e /\ in_time e p.
Proof.
  intros E e. destruct (e_duration e) as [d|] eqn:D.
  - rewrite (get_events_in _ _ _ _ E e d D). unfold touches, in_time. rewrite D. split.
    + intros (H1 & H2 & H3 & H4). split; [exact H1|]. split; [exact H2|]. split; [|exact H4]. intros b B. exists d. auto.
    + intros (H1 & H2 & H3 & H4). split; [exact H1|]. split; [exact H2|]. split; [|exact H4]. intros b B.
      destruct (H3 b B) as (d' & X & Y). injection X as <-. exact Y.
  - unfold get_events in E. destruct (matching_events evs c) as [m| |] eqn:M; try discriminate.
    cbn [rbind] in E. rewrite (rfilter_in _ _ _ E), (matching_in _ _ _ M), D. unfold in_period, in_time, end_of.
    destruct p as [[b|] [x|]]; cbn [fst snd rbind].
    + split; [intros [_ X]; discriminate|]. intros (_ & _ & H & _). destruct (H b eq_refl) as (d & X & _). congruence.
    + split; [intros [_ X]; discriminate|]. intros (_ & _ & H & _). destruct (H b eq_refl) as (d & X & _). congruence.
    + split.
      * intros [[H1 H2] X]. split; [exact H1|]. split; [exact H2|]. split; [discriminate|]. intros y Y. injection Y as <-.
        destruct (Z.leb_spec x (e_dtstart e)); [discriminate|assumption].
      * intros (H1 & H2 & _ & H3). split; [auto|]. specialize (H3 x eq_refl). destruct (Z.leb_spec x (e_dtstart e)); [exfalso; now apply (Z.lt_irrefl x); apply Z.le_lt_trans with (e_dtstart e)|reflexivity].
    + split; [intros [[H1 H2] _]|intros (H1 & H2 & _)]; (split; [auto|]); try reflexivity. split; [exact H2|]. split; discriminate.
Qed.

(** exactly, for any criteria: those of the events in the period that the
    criteria want, the calendar's attendees standing in where the criteria name
    none *)
Theorem C34_calendar_exact : forall evs atts p c l, calendar_events evs atts p c = Ok l ->
  forall e, In e l <-> In e evs /\ wanted c (Some atts) None e /\ in_time e p.
Proof. intros evs atts p c l E e. rewrite (get_events_exact _ _ _ _ E e). cbn [the_criteria]. now rewrite satisfies_restrict. Qed.
Print Assumptions C34_calendar_exact.

Theorem C34_attendee_exact : forall evs a p c l, attendee_events evs a p c = Ok l ->
  forall e, In e l <-> In e evs /\ wanted c (Some [a]) None e /\ in_time e p.
Proof. intros evs a p c l E. exact (C34_calendar_exact evs [a] p c l E). Qed.
Print Assumptions C34_attendee_exact.

Theorem C34_occurrences_exact : forall F evs atts b pe c l, evs_ok evs ->
  calendar_occurrences F evs atts (Some b, Some pe) c = Ok l ->
  forall o, In o l <-> exists e t d, In e evs /\ wanted c (Some atts) None e /\ e_duration e = Some d
     /\ o = mkOcc t (Some d) e /\ occurs e t /\ b < t + d /\ t < pe.
Proof.
  intros F evs atts b pe c l OK E o. rewrite (get_occurrences_in _ _ _ _ _ _ OK E o). cbn [the_criteria].
  split; intros (e & t & d & H1 & H2 & H3); exists e, t, d; (split; [exact H1|]); (split; [now apply satisfies_restrict|exact H3]).
Qed.
Print Assumptions C34_occurrences_exact.

(** criteria that ask for empty things ask for nothing *)
Example C34_exact_case :
  calendar_events store [alice] (None, None) (Some (mk_criteria (AMany []) (Some ""%string) (Some ""%string) (Some []) None)) = Ok [ev1; ev3]
  /\ calendar_events store [alice] (None, None) (Some (mk_criteria (AOne bob) None None None None)) = Ok [ev1; ev2]
  /\ wanted (Some (mk_criteria (AOne bob) (Some "ACCEPTED"%string) None None None)) (Some [alice]) None ev2.
Proof.
  split; [vm_compute; reflexivity|]. split; [vm_compute; reflexivity|]. split; [discriminate|]. split.
  - intros o [[X _]|[_ X]]; discriminate.
  - intros l [[X _]|[[X|(w & X & ->)] _]]; [|discriminate|discriminate]. cbn in X. injection X as <-.
    exists "bob"%string, "ACCEPTED"%string. split; [now left|]. split; [reflexivity|]. split; [|discriminate].
    intros s S _. cbn in S. congruence.
Qed.

(** * C57 free periods are maximal *)
(** Partial: no event of zero length; whole-day periods. *)
Theorem C57_free_maximal_partial : forall F evs atts begins ends tb te l,
  evs_ok evs -> dt_ok begins = true -> dt_ok ends = true -> begins < ends -> 0 <= tb < DAY /\ 0 <= te < DAY ->
  dt_time begins <= tb -> dt_time ends = 0 ->
  (forall e d, In e evs -> e_duration e = Some d -> 0 < d) ->
  get_free F evs atts begins ends tb te None = Ok l -> gapped l.
Proof. exact get_free_maximal. Qed.
Print Assumptions C57_free_maximal_partial.

Theorem C57_free_maximal_after_closing_partial : forall F evs atts begins ends tb te m l,
  evs_ok evs -> dt_ok begins = true -> dt_ok ends = true -> begins < ends -> 0 <= tb < DAY /\ 0 <= te < DAY ->
  dt_time begins <= tb -> te <= dt_time ends -> 0 < dt_time ends -> 0 <= m ->
  (forall e d, In e evs -> e_duration e = Some d -> 0 < d) ->
  get_free F evs atts begins ends tb te (Some m) = Ok l ->
  exists G, free_spec evs atts begins ends tb te G /\ gapped G /\ l = filter (fun x => m <=? snd x - fst x) G.
Proof. exact get_free_maximal2. Qed.
Print Assumptions C57_free_maximal_after_closing_partial.

Example C57_case : (forall e d, In e store -> e_duration e = Some d -> 0 < d)
  /\ gapped [(at_ 0 9, at_ 0 10); (at_ 0 12, at_ 0 16); (at_ 1 9, at_ 1 16)].
Proof.
  split; [|vm_compute; auto].
  intros e d [<-|[<-|[<-|[]]]] E; injection E as <-; reflexivity.
Qed.

(** a reminder of no length cuts the free afternoon in two *)
Theorem C57_refuted : exists evs l a b c, evs_ok evs
  /\ get_free 50 evs [alice] (at_ 0 0) (at_ 1 0) (9 * HOUR) (17 * HOUR) None = Ok l
  /\ In (a, b) l /\ In (b, c) l /\ a < b < c
  /\ get_free 50 evs [alice] (at_ 0 0) (at_ 1 0) (9 * HOUR) (17 * HOUR) (Some (6 * HOUR)) = Ok [].
Proof.
  exists [q_event "z" (at_ 0 12) 0 None "CONFIRMED" false [("alice", "ACCEPTED")]%string],
    [(at_ 0 9, at_ 0 12); (at_ 0 12, at_ 0 17)], (at_ 0 9), (at_ 0 12), (at_ 0 17).
  split.
  { intros e [<-|[]]. split; [|exact I]. split; [vm_compute; reflexivity|].
    exists 0. vm_compute. intuition congruence. }
  vm_compute. intuition congruence.
Qed.
Print Assumptions C57_refuted.

(** * C58 organized events *)
(** Partial: criteria that leave the organizer open. *)
Theorem C58_organized_events_partial : forall evs i c l,
  match c with None => True | Some c => c_organizer c = None end ->
  (forall c', c = Some c' -> plain c' /\ c_attendees c' <> Some []) ->
  organized_events evs (Some i) c = Ok l ->
  forall e, In e l <-> In e evs /\ e_organizer e = Some i
    /\ satisfies (match c with Some c => c | None => no_criteria end) e.
Proof. exact organized_exact. Qed.
Print Assumptions C58_organized_events_partial.

Example C58_case : organized_events store alice (Some (mk_criteria (AOne bob) None None None None)) = Ok [ev1; ev2]
  /\ organized_events store bob None = Ok [].
Proof. vm_compute. auto. Qed.

Theorem C58_refuted : exists evs c l e, organized_events evs bob (Some c) = Ok l /\ In e l
  /\ e_organizer e <> Some "bob"%string.
Proof.
  exists store, (mk_criteria ANone None None None (Some alice)), store, ev1.
  split; [vm_compute; reflexivity|]. split; [now left|]. vm_compute. congruence.
Qed.
Print Assumptions C58_refuted.

(** exactly, for any criteria *)
Theorem C58_organized_exact : forall evs a c l, organized_events evs a c = Ok l ->
  forall e, In e l <-> In e evs /\ wanted c None (Some a) e.
Proof.
  intros evs a c l E e. unfold organized_events in E. rewrite (get_events_unbounded _ _ _ E e). cbn [the_criteria].
  destruct c as [c|]; [now rewrite (satisfies_wanted c ANone (Some a) e)|now rewrite (satisfies_given ANone (Some a) e)].
Qed.
Print Assumptions C58_organized_exact.

Example C58_exact_case : organized_events store bob (Some (mk_criteria ANone None None None (Some alice))) = Ok store
  /\ organized_events store alice (Some (mk_criteria (AMany []) None None None None)) = Ok store.
Proof. vm_compute. auto. Qed.

