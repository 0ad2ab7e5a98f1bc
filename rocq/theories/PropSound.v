(** Calendars kept with sound specifications answer every query, exactly (C109):
    the theorems about queries, for the states the calls lead to. *)
From Verif Require Import Base PyDate DateFacts Recurrent SpecRecur RecurMain RecurMisc CalTime TimeProofs Event Storage ICal System
  QueryProofs BlockProofs EventProofs SpecProofs SystemProofs StoreProofs ImportContent ICalProofs PropQuery PropEvent PropSystem PropICal PropFree PropExact.
From Coq Require Import ZifyBool.
Ltac Zify.zify_post_hook ::= Z.div_mod_to_equations.
Local Opaque ord2ymd year_of month_of day_of ymd2ord days_in_month is_leap.

(** * Sound histories *)
(** The event takes no negative time, and it and any that as long starts by the
    day after [H] ends before the calendar does, a day to spare. *)
Definition sound_times (H t d : Z) : Prop :=
  DAY <= t /\ 0 <= d /\ t + d + DAY < (MAXORD + 1) * DAY /\ H + d + 2 * DAY < (MAXORD + 1) * DAY.

(** A valid rule that ends at a date if at all, whose steps do not leave the
    calendar before [H], and that is not yearly on a 29 February. *)
Definition sound_rule (H t : Z) (r : rule) : Prop :=
  valid_rule r
  /\ (r_kind r <> KNo ->
      until_is_date r /\ year_of (dt_date H) + 16 * r_interval r < MAXYEAR /\ year_of (dt_date t) < MAXYEAR
      /\ ~ (r_kind r = KYearly /\ month_of (dt_date t) = 2 /\ day_of (dt_date t) = 29)).

Definition sound_spec (H : Z) (sp : spec) : Prop :=
  (exists d, s_duration sp = Some d /\ sound_times H (s_dtstart sp) d)
  /\ (forall r, s_recurrence sp = Some r -> sound_rule H (s_dtstart sp) r).

(** the same of the parts of an RRULE *)
Definition sound_rrule (H t : Z) (rr : rrule) : Prop :=
  (forall i l, rr_interval rr = Some (i :: l) -> 1 <= i /\ year_of (dt_date H) + 16 * i < MAXYEAR)
  /\ year_of (dt_date H) + 16 < MAXYEAR
  /\ (rr_count rr = None \/ rr_until rr = None)
  /\ (forall u l, rr_until rr = Some (u :: l) -> exists x, u = VDate x)
  /\ year_of (dt_date t) < MAXYEAR
  /\ ~ ((exists l, rr_freq rr = Some ("YEARLY"%string :: l)) /\ month_of (dt_date t) = 2 /\ day_of (dt_date t) = 29).

Definition sound_component (tz : Z -> Z) (H : Z) (v : vevent) : Prop :=
  forall t d allday, says_times tz v t d allday ->
    sound_times H t d /\ forall rr, v_rrule v = Some rr -> sound_rrule H t rr.

(** specifications and texts are sound; anything else may happen *)
Definition sound_op (cf : config) (H : Z) (o : op) : Prop :=
  match o with
  | OCreate _ sp _ | OAttendeeCreate _ sp _ | OAssign _ sp | OSpecify _ sp => sound_spec H sp
  | OImport _ (Ok (Some vs)) _ _ _ => Forall (sound_component (cf_tz cf) H) vs
  | _ => True
  end.

(** * What is kept *)
Definition kept_times (H t d : Z) : Prop :=
  DAY <= t /\ 0 <= d /\ exists k, 1 <= k /\ d <= k * DAY /\ t + k * DAY < (MAXORD + 1) * DAY /\ H + DAY + k * DAY < (MAXORD + 1) * DAY.

Definition kept (H : Z) (e : event) : Prop :=
  (exists d, e_duration e = Some d /\ kept_times H (e_dtstart e) d)
  /\ (forall r, e_recurrence e = Some r -> sound_rule H (e_dtstart e) r).

Lemma sound_kept_times H t d : sound_times H t d -> kept_times H t d.
Proof.
  intros (A & B & C & D). split; [exact A|]. split; [exact B|]. exists (d / DAY + 1).
  unfold DAY, MAXORD in *. repeat split; lia.
Qed.

Lemma kept_as H e sp : sound_spec H sp -> e_dtstart e = s_dtstart sp -> e_duration e = s_duration sp ->
  e_recurrence e = s_recurrence sp -> kept H e.
Proof.
  intros [(d & D & T) R] E1 E2 E3. split.
  - exists d. split; [congruence|]. rewrite E1. now apply sound_kept_times.
  - intros r Hr. rewrite E1. apply R. congruence.
Qed.

Lemma kept_attrs H e e' : same_attrs e e' -> kept H e -> kept H e'.
Proof.
  intros (_ & T & D & _ & _ & _ & _ & R & _) [(d & D1 & K) Q]. split.
  - exists d. split; [congruence|]. now rewrite T.
  - intros r Hr. rewrite T. apply Q. congruence.
Qed.

Lemma sound_rule_date H t t' r : dt_date t' = dt_date t -> sound_rule H t r -> sound_rule H t' r.
Proof. intros E. unfold sound_rule. now rewrite E. Qed.

Lemma kept_adjust H e : kept H e -> kept H (allday_adjust e).
Proof.
  intros [(d & D & A & B & k & K1 & K2 & K3 & K4) R].
  destruct (allday_spec e) as (S & _ & L). destruct (L d D B) as (k' & D' & P1 & P2 & P3).
  destruct (allday_rest e) as (_ & _ & _ & _ & _ & RR & _).
  specialize (P3 k K1 K2). split.
  - exists (k' * DAY). split; [exact D'|]. rewrite S. unfold kept_times, dt_date, DAY, MAXORD in *.
    split; [lia|]. split; [lia|]. exists k. repeat split; lia.
  - intros r Hr. rewrite RR in Hr. apply (sound_rule_date H (e_dtstart e)); [|now apply R].
    rewrite S. unfold dt_date, DAY. lia.
Qed.

Lemma sound_spec_organizer H sp i : sound_spec H sp -> sound_spec H (with_spec_organizer sp i).
Proof. intros [A B]. split; [exact A|exact B]. Qed.

Lemma new_event_kept H u sp e : sound_spec H sp -> new_event u sp = Ok e -> kept H e.
Proof.
  intros S E. destruct (new_event_eq _ _ _ E) as (e0 & n & E0 & ->).
  assert (K : kept H e0).
  { pose proof (set_on_object_attrs sp (blank u)) as X. rewrite E0 in X. unfold mev in X. cbn [fst] in X.
    destruct X as (_ & X1 & X2 & _ & _ & _ & _ & X3 & _). now apply (kept_as H e0 sp). }
  destruct (s_allday sp); [now apply kept_adjust|exact K].
Qed.

Lemma set_on_object_kept H sp e : sound_spec H sp -> kept H (mev (set_on_object sp e)).
Proof.
  intros S. destruct (set_on_object_attrs sp e) as (_ & X1 & X2 & _ & _ & _ & _ & X3 & _). now apply (kept_as H _ sp).
Qed.

Lemma rule_of_rrule H t rr r : sound_rrule H t rr -> import_rule rr = Ok r -> sound_rule H t r.
Proof.
  intros (I & I1 & CU & U & Y & F) E. split.
  - apply (C54_valid_partial rr r E); [|exact CU]. intros i l X. now apply (I i l).
  - intros _. destruct (import_rule_says rr r E) as ((f & l & E1 & E2) & EI & _ & EU & _).
    split; [|split; [|split; [exact Y|]]].
    + unfold until_is_date. unfold first_or in EU. destruct (rr_until rr) as [l0|].
      * destruct EU as (y & l' & -> & ->). destruct (U y l' eq_refl) as (x & ->). exact Logic.I.
      * now rewrite EU.
    + unfold first_or in EI. destruct (rr_interval rr) as [l0|].
      * destruct EI as (y & l' & -> & EI). injection EI as ->. now apply (I y l').
      * injection EI as ->. lia.
    + intros (K & M). apply F. split; [|exact M]. rewrite K in E2. cbn in E2. injection E2 as <-. exists l. exact E1.
Qed.

Lemma import_spec_sound H tz known default v sp : sound_component tz H v -> import_spec tz known default v = Ok sp -> sound_spec H sp.
Proof.
  intros S. unfold import_spec. destruct (dtstart_duration tz v) as [[[t d] ad]| |] eqn:E; try discriminate. cbn [rbind].
  destruct (S t d ad (dtstart_duration_says _ _ _ _ _ E)) as [T R].
  match goal with |- rbind ?r _ = _ -> _ => destruct r as [org| |]; try discriminate end. cbn [rbind].
  destruct (v_rrule v) as [rr|] eqn:RR.
  - destruct (import_rule rr) as [r| |] eqn:ER; try discriminate. cbn [rbind]. intros X. injection X as <-.
    split; cbn; [exists d; auto|]. intros r' Y. injection Y as <-. apply (rule_of_rrule H t rr r); [now apply R|exact ER].
  - cbn [rbind]. intros X. injection X as <-. split; cbn; [exists d; auto|discriminate].
Qed.

(** ** through the calls *)
Lemma on_event_kept H s r f : (kept H (obj s r) -> kept H (mev (f (obj s r)))) -> heap_all (kept H) s -> heap_all (kept H) (sst (on_event s r f)).
Proof.
  intros F K. unfold on_event. unfold mev in F. destruct (f (obj s r)) as [[e n] x]. unfold sst, heap_all. cbn in *.
  destruct (le_lt_dec (List.length (sys_heap s)) r) as [L|L].
  - replace (replace_nth r (sys_heap s) e) with (sys_heap s); [exact K|].
    clear - L. revert r L. induction (sys_heap s) as [|y l IH]; intros r L; [now destruct r|].
    destruct r as [|r]; [cbn in L; lia|]. cbn. f_equal. apply IH. cbn in L. lia.
  - apply Forall_replace; [exact K|]. apply F. unfold obj. apply (proj1 (Forall_forall _ _) K). now apply nth_In.
Qed.

Lemma create_kept H cf s uid sp now : sound_spec H sp -> heap_all (kept H) s -> heap_all (kept H) (sst (create_event cf s uid sp now)).
Proof.
  intros S K. unfold create_event.
  set (u := match uid with Some u => u | None => _ end). destruct (new_event u sp) as [e|x|] eqn:E; try exact K.
  unfold heap_all, sst. cbn. apply Forall_app. split; [exact K|]. constructor; [|constructor]. now apply (new_event_kept H u sp).
Qed.

Lemma delete_kept H s r : heap_all (kept H) s -> heap_all (kept H) (sst (delete_event s r)).
Proof. intros K. unfold delete_event. destruct (ddel _ _); exact K. Qed.

Lemma heap_trans (P : event -> Prop) : T_trans (fun _ _ s => heap_all P s).
Proof. intros ? ? ? ? ? _ X. exact X. Qed.

Lemma delete_loop_kept H l : forall s, heap_all (kept H) s -> heap_all (kept H) (sst (delete_loop s l)).
Proof.
  induction l as [|u l IH]; intros s K; [exact K|]. cbn [delete_loop]. rewrite sbind_slift.
  destruct (get_event s u); try exact K. apply (sbind_T _ _ _ s (heap_trans (kept H))).
  - now apply delete_kept.
  - intros [] _. apply IH. now apply delete_kept.
Qed.

Lemma import_existing_kept H cf s c uid v : sound_component (cf_tz cf) H v ->
  heap_all (kept H) s -> heap_all (kept H) (sst (import_existing cf s c uid v)).
Proof.
  intros S K. unfold import_existing. rewrite sbind_slift. destruct (get_event s uid) as [r| |]; try exact K.
  rewrite sbind_slift. destruct (import_spec _ _ _ v) as [sp| |] eqn:E; try exact K.
  rewrite sbind_slift. destruct (will_modify sp (obj s r)) as [[|]| |]; try exact K.
  assert (X : heap_all (kept H) (sst (on_event s r (set_on_object sp)))).
  { apply on_event_kept; [|exact K]. intros _. apply set_on_object_kept. eapply import_spec_sound; eassumption. }
  apply (sbind_T _ _ _ s (heap_trans (kept H))); [exact X|]. intros [] _. exact X.
Qed.

Lemma import_one_kept H cf s c known v : sound_component (cf_tz cf) H v ->
  heap_all (kept H) s -> heap_all (kept H) (sst (import_one cf s c known v)).
Proof.
  intros S K. unfold import_one. destruct (v_uid v) as [uid|]; [|exact K].
  destruct (str_in uid known).
  - pose proof (import_existing_kept H cf s c uid v S K) as X.
    apply (sbind_T _ _ _ s (heap_trans (kept H))); [exact X|]. intros [] _. exact X.
  - destruct (has_event s uid); [exact K|].
    assert (N : heap_all (kept H) (sst (import_new cf s c uid v))).
    { unfold import_new. rewrite sbind_slift. destruct (import_spec _ _ _ v) as [sp| |] eqn:E; try exact K.
      assert (X : forall now, heap_all (kept H) (sst (create_event cf s (Some uid) sp now))).
      { intros now. apply create_kept; [|exact K]. eapply import_spec_sound; eassumption. }
      apply (sbind_T _ _ _ s (heap_trans (kept H))); [apply X|]. intros r _. apply X. }
    apply (sbind_T _ _ _ s (heap_trans (kept H))); [exact N|]. intros [] _. exact N.
Qed.

Lemma import_loop_kept H cf c known l : Forall (sound_component (cf_tz cf) H) l ->
  forall s, heap_all (kept H) s -> heap_all (kept H) (sst (import_loop cf s c known l)).
Proof.
  intros S. induction S as [|v l S1 _ IH]; intros s K; [exact K|]. cbn [import_loop].
  pose proof (import_one_kept H cf s c known v S1 K) as H1.
  apply (sbind_T _ _ _ s (heap_trans (kept H))); [exact H1|]. intros uid _.
  pose proof (IH _ H1) as H2. apply (sbind_T _ _ _ s (heap_trans (kept H))); [exact H2|]. intros uids _. exact H2.
Qed.

Lemma step_kept H cf s o : sound_op cf H o -> heap_all (kept H) s -> heap_all (kept H) (sst (step cf s o)).
Proof.
  intros O K. destruct o; cbn [step sound_op] in *; rewrite ?drop_sst.
  - now apply create_kept.
  - apply create_kept; [now apply sound_spec_organizer|exact K].
  - now apply delete_kept.
  - apply on_event_kept; [|exact K]. apply kept_attrs. apply invite_attrs.
  - apply on_event_kept; [|exact K]. apply kept_attrs. apply set_status_attrs.
  - apply on_event_kept; [|exact K]. apply kept_attrs. apply set_role_attrs.
  - apply on_event_kept; [|exact K]. apply kept_adjust.
  - apply on_event_kept; [|exact K]. intros _. now apply (kept_as H _ sp).
  - apply on_event_kept; [|exact K]. intros _. now apply set_on_object_kept.
  - exact K.
  - exact K.
  - unfold add_attendee. destruct a; exact K.
  - unfold remove_attendee. destruct (let* i := attendee_id a in _); exact K.
  - unfold import_cal. rewrite sbind_slift. destruct (cal_events s c p cr) as [evs| |]; try exact K.
    rewrite sbind_slift. destruct parsed as [[vs|]| |]; try exact K.
    pose proof (import_loop_kept H cf c (nodup string_dec (map e_uid evs)) vs O s K) as H1.
    apply (sbind_T _ _ _ s (heap_trans (kept H))); [exact H1|]. intros uids _.
    destruct sync; [now apply delete_loop_kept|exact H1].
Qed.

Lemma path_kept H cf s : path cf (fun _ o => sound_op cf H o) s -> heap_all (kept H) s.
Proof. intros P. induction P as [|s o _ IH O]; [constructor|]. now apply step_kept. Qed.

Lemma stored_kept H cf s : path cf (fun _ o => sound_op cf H o) s -> forall e, In e (stored s) -> kept H e.
Proof.
  intros P e He. unfold stored in He. apply in_map_iff in He as ([u r] & <- & Hin). cbn [snd].
  destruct (path_history _ _ _ P) as [h Hh]. destruct (reachable_store cf s (ex_intro _ h Hh)) as [ND ST].
  destruct (ST u r) as (L & _).
  { now apply in_dget. }
  unfold obj. apply (proj1 (Forall_forall _ _) (path_kept H cf s P)). now apply nth_In.
Qed.

Lemma kept_event_ok H e : kept H e -> event_ok e /\ event_rule_ok e.
Proof.
  intros [(d & D & A & B & k & K1 & K2 & K3 & K4) R]. split.
  - split; [unfold dt_ok, DAY, MAXORD in *; lia|]. exists d. split; [exact D|]. split; [exact B|]. unfold dt_ok, DAY, MAXORD in *; lia.
  - unfold event_rule_ok. destruct (e_recurrence e) as [r|]; [|exact I]. now apply (R r eq_refl).
Qed.

Lemma kept_room H e pe : kept H e -> 1 <= dt_date pe -> pe <= H -> expand_room e pe.
Proof.
  intros [(d & D & A & B & k & K1 & K2 & K3 & K4) R] P L. unfold expand_room. destruct (e_recurrence e) as [r|]; [|exact I].
  destruct (R r eq_refl) as [_ R2]. split.
  - intros K. destruct (R2 K) as (U & Y & Y2 & N). split; [exact U|]. split; [|split; [exact Y2|exact N]].
    assert (year_of (dt_date pe) <= year_of (dt_date H)); [|lia].
    apply year_mono; [exact P|]. unfold dt_date in *. apply Z.div_le_mono; [reflexivity|exact L].
  - intros d' E. assert (d' = d) by congruence. subst d'. unfold DAY, MAXORD in *. lia.
Qed.

Lemma sound_evs_ok H cf s : path cf (fun _ o => sound_op cf H o) s -> evs_ok (stored s).
Proof. intros P e He. now apply (kept_event_ok H), (stored_kept H cf s P). Qed.

Lemma sound_room H cf s pe : path cf (fun _ o => sound_op cf H o) s -> dt_ok pe = true -> pe <= H ->
  forall e, In e (stored s) -> expand_room e pe.
Proof.
  intros P O L e He. apply (kept_room H); [now apply (stored_kept H cf s P)| |exact L]. now apply dt_ok_date in O.
Qed.

Lemma stored_nodup cf ok s : path cf ok s -> NoDup (stored s).
Proof.
  intros P. destruct (path_history _ _ _ P) as [h Hh]. destruct (reachable_store cf s (ex_intro _ h Hh)) as [ND ST].
  apply (NoDup_map_inv e_uid). replace (map e_uid (stored s)) with (dkeys (sys_store s)); [exact ND|].
  unfold stored, dkeys. rewrite map_map. apply map_ext_in. intros [u r] Hin. cbn. symmetry. apply (ST u r). now apply in_dget.
Qed.

Lemma cal_attendees_real s c atts : cal_attendees s c = Ok atts -> ~ In None atts.
Proof.
  unfold cal_attendees. generalize (dkeys (cal s c)). intros l. revert atts.
  induction l as [|i l IH]; intros atts E; cbn [rmap] in E.
  - injection E as <-. intros [].
  - unfold source_get in E at 1. destruct (dget (sys_source s) i); [|discriminate]. cbn [rbind] in E.
    destruct (rmap (source_get s) l) as [r| |]; try discriminate. cbn [rbind] in E. injection E as <-.
    intros [X|X]; [discriminate|]. now apply (IH r).
Qed.

(** * C109 *)
(** Whatever calls were made, if their specifications and texts were sound, then
    the events in any period can be had, each once and no others. *)
Theorem C109_events cf H s p c : path cf (fun _ o => sound_op cf H o) s ->
  crit_ok (match c with Some c => c | None => no_criteria end) ->
  exists l, get_events (stored s) p c = Ok l /\ NoDup l
    /\ forall e, In e l <-> In e (stored s) /\ satisfies (match c with Some c => c | None => no_criteria end) e
         /\ exists d, e_duration e = Some d /\ 0 <= d
            /\ (forall b, fst p = Some b -> b < e_dtstart e + d) /\ (forall x, snd p = Some x -> e_dtstart e < x).
Proof.
  intros P C. pose proof (sound_evs_ok H cf s P) as OK.
  destruct (C20_always_answers (stored s) p c C (fun e He => proj1 (OK e He))) as [l E].
  exists l. split; [exact E|]. split; [apply (C20_each_once _ _ _ _ E), (stored_nodup cf _ s P)|].
  intros e. split.
  - intros He. assert (IN : In e (stored s)).
    { unfold get_events in E. destruct (matching_events (stored s) c) as [m| |] eqn:M; try discriminate. cbn [rbind] in E.
      apply (rfilter_in _ _ _ E) in He as [He _]. now apply (matching_in _ _ _ M) in He. }
    destruct (OK e IN) as [(_ & d & D & D0 & _) _].
    apply (C20_events_exact _ _ _ _ E e d D) in He as (H1 & H2 & H3 & H4). split; [exact IN|]. split; [exact H2|]. exists d. auto.
  - intros (H1 & H2 & d & D & D0 & H3 & H4). apply (C20_events_exact _ _ _ _ E e d D). auto.
Qed.
Print Assumptions C109_events.

(** So can the occurrences in any period that ends by [H]. *)
Theorem C109_occurrences cf H s b pe c : path cf (fun _ o => sound_op cf H o) s ->
  dt_ok pe = true -> pe <= H -> crit_ok (match c with Some c => c | None => no_criteria end) ->
  exists N, forall F, (N <= F)%nat -> exists l, get_occurrences F (stored s) (Some b, Some pe) c = Ok l /\ NoDup l
    /\ forall o, In o l <-> exists e t d, In e (stored s) /\ satisfies (match c with Some c => c | None => no_criteria end) e
         /\ e_duration e = Some d /\ o = mkOcc t (Some d) e /\ occurs e t /\ b < t + d /\ t < pe.
Proof.
  intros P O L C. pose proof (sound_evs_ok H cf s P) as OK.
  destruct (C21_terminates (stored s) b pe c OK C (proj1 (proj1 (dt_ok_date pe) O)) (sound_room H cf s pe P O L)) as [N HN].
  exists N. intros F HF. destruct (HN F HF) as [l E]. exists l. split; [exact E|].
  split; [apply (C21_each_once _ _ _ _ _ OK (stored_nodup cf _ s P) E)|]. exact (C21_occurrences_exact _ _ _ _ _ _ OK E).
Qed.
Print Assumptions C109_occurrences.

(** A calendar can show any day before [H]: the pieces that lie in the day of the
    occurrences its attendees take part in. *)
Theorem C109_day cf H s c atts D : path cf (fun _ o => sound_op cf H o) s -> cal_attendees s c = Ok atts ->
  1 <= D -> (D + 1) * DAY <= H -> H < MAXORD * DAY ->
  exists N, forall F, (N <= F)%nat -> exists l, calendar_occurrences_in_day F (stored s) atts D None = Ok l
    /\ forall o, In o l <-> exists e t d, In e (stored s)
         /\ (exists i st, In (Some i) atts /\ dget (e_state e) i = Some st)
         /\ e_duration e = Some d /\ occurs e t
         /\ o_original o = e /\ o_dtstart o = Z.max t (D * DAY)
         /\ o_duration o = Some (Z.min (t + d) ((D + 1) * DAY) - Z.max t (D * DAY))
         /\ (Z.max t (D * DAY) < Z.min (t + d) ((D + 1) * DAY) \/ (d = 0 /\ D * DAY < t < (D + 1) * DAY)).
Proof.
  intros P A D1 D2 HM. pose proof (sound_evs_ok H cf s P) as OK. pose proof (cal_attendees_real s c atts A) as NN.
  assert (OE : dt_ok (combine (D + 1) 0) = true) by (unfold dt_ok, combine, DAY, MAXORD in *; lia).
  destruct (segmented_total (stored s) (combine D 0) (combine (D + 1) 0) (Some (restrict_attendees None atts)) OK) as [N HN].
  - split; [discriminate|]. intros l E. cbn in E. injection E as <-. exact NN.
  - unfold dt_ok, combine, DAY, MAXORD in *. lia.
  - exact OE.
  - unfold combine, DAY, MAXORD in *. lia.
  - unfold combine, DAY, MAXORD in *. lia.
  - apply (sound_room H cf s); [exact P|exact OE|]. unfold combine. lia.
  - exists N. intros F HF. destruct (HN F HF) as [l E].
    assert (E' : calendar_occurrences_in_day F (stored s) atts D None = Ok l).
    { unfold calendar_occurrences_in_day. rewrite day_period_eq by (unfold DAY, MAXORD in *; lia). exact E. }
    exists l. split; [exact E'|]. intros o. rewrite (C22_occurrences_in_day_exact F (stored s) atts D None l OK E' o).
    assert (W : forall e, wanted None (Some atts) None e <-> exists i st, In (Some i) atts /\ dget (e_state e) i = Some st).
    { intros e. rewrite <- (satisfies_restrict None atts). change (restrict_attendees None atts) with (narrowed None atts). rewrite narrowed_none. reflexivity. }
    split; intros (e & t & d & K1 & K2 & K3); exists e, t, d; (split; [exact K1|]); (split; [now apply W|exact K3]).
Qed.
Print Assumptions C109_day.

(** The blocked periods can be had and are the busy and the night hours; *)
Theorem C109_blocked cf H s atts begins ends tb te : path cf (fun _ o => sound_op cf H o) s -> ~ In None atts ->
  dt_ok begins = true -> dt_ok ends = true -> begins < ends -> ends <= H -> H < MAXORD * DAY -> 0 <= tb < DAY /\ 0 <= te < DAY ->
  exists N, forall F, (N <= F)%nat -> exists l, get_blocked F (stored s) atts begins ends tb te = Ok l
    /\ forall t, begins <= t < ends ->
       ((exists x e, In (x, e) l /\ x <= t < e) <->
        (dt_time t < tb \/ te <= dt_time t)
        \/ exists i e, In (Some i) atts /\ In e (stored s)
             /\ (e_transparent e = false /\ e_status e <> "CANCELED"%string
                 /\ exists st, dget (e_state e) i = Some st /\ st <> "DECLINED"%string /\ st <> "DELEGATED"%string)
             /\ exists t0 d, e_duration e = Some d /\ occurs e t0 /\ t0 <= t < t0 + d).
Proof.
  intros P NN OB OE BE L HM W. pose proof (sound_evs_ok H cf s P) as OK.
  destruct (C26_terminates (stored s) atts begins ends tb te OK NN OB OE ltac:(lia) ltac:(lia) BE W (sound_room H cf s ends P OE L)) as [N HN].
  exists N. intros F HF. destruct (HN F HF) as [l E]. exists l. split; [exact E|]. exact (C26_blocked_exact _ _ _ _ _ _ _ _ OK OB OE W E).
Qed.
Print Assumptions C109_blocked.

(** the free periods of whole days can be had and are the rest. *)
Theorem C109_free cf H s atts B E tb te : path cf (fun _ o => sound_op cf H o) s -> ~ In None atts ->
  1 <= B < E -> E * DAY <= H -> H < MAXORD * DAY -> 0 <= tb < DAY /\ 0 <= te < DAY ->
  exists N, forall F, (N <= F)%nat -> exists l, get_free F (stored s) atts (B * DAY) (E * DAY) tb te None = Ok l
    /\ ordered l
    /\ (forall x, In x l -> B * DAY <= fst x < snd x /\ snd x <= E * DAY)
    /\ (forall t, (exists x e, In (x, e) l /\ x <= t < e) <->
          B * DAY <= t < E * DAY /\ tb <= dt_time t < te
          /\ ~ exists i e, In (Some i) atts /\ In e (stored s)
             /\ (e_transparent e = false /\ e_status e <> "CANCELED"%string
                 /\ exists st, dget (e_state e) i = Some st /\ st <> "DECLINED"%string /\ st <> "DELEGATED"%string)
             /\ exists t0 d, e_duration e = Some d /\ occurs e t0 /\ t0 <= t < t0 + d).
Proof.
  intros P NN BE L HM W. pose proof (sound_evs_ok H cf s P) as OK.
  assert (OB : dt_ok (B * DAY) = true) by (unfold dt_ok, DAY, MAXORD in *; lia).
  assert (OE : dt_ok (E * DAY) = true) by (unfold dt_ok, DAY, MAXORD in *; lia).
  assert (LT : B * DAY < E * DAY) by (unfold DAY; lia).
  destruct (C26_terminates (stored s) atts (B * DAY) (E * DAY) tb te OK NN OB OE ltac:(lia) ltac:(lia) LT W (sound_room H cf s _ P OE L)) as [N HN].
  exists N. intros F HF. destruct (HN F HF) as [bl EB].
  assert (X : exists l, get_free F (stored s) atts (B * DAY) (E * DAY) tb te None = Ok l).
  { unfold get_free. rewrite EB. cbn [rbind]. eexists. reflexivity. }
  destruct X as [l X]. exists l. split; [exact X|].
  destruct (C28_whole_days_partial F _ atts _ _ _ _ l OK OB OE LT W) as (F1 & F2 & F3 & F4).
  - unfold dt_time, DAY in *. lia.
  - unfold dt_time, DAY. lia.
  - exact X.
  - rewrite Forall_forall in F1. split; [exact F2|]. split.
    + intros x Hx. specialize (F1 x Hx). specialize (F3 x Hx). lia.
    + intros t. rewrite (F4 t). unfold outside. split.
      * intros (A1 & A2 & A3). split; [exact A1|]. split; [lia|exact A3].
      * intros (A1 & A2 & A3). split; [exact A1|]. split; [lia|exact A3].
Qed.
Print Assumptions C109_free.

(** a history with an import and calls of every kind, sound until the year 3000 *)
Definition sound_day : vevent :=
  mkV (Some "d1"%string) (Some (IDate 732510)) None (Some (2 * DAY)) (Some "Trip"%string) None None None None
      [("bob"%string, None, None)] [] None None None
      (Some (mkRR (Some ["WEEKLY"%string]) (Some [2]) None (Some [VDate 732600]) (Some ["MO"; "FR"]%string))).
Definition sound_office : list op :=
  office ++ [OImport 0 (Ok (Some [sound_day; x_event "a1" 732502 "Moved" []])) (None, None) None false;
              OSetStatus 0 bob (Some "ACCEPTED"); OAdjust 1; OSetRole 1 bob "CHAIR"; ODelete 2]%string.

Example C109_case : path cf0 (fun _ o => sound_op cf0 (1095362 * DAY) o) (run cf0 sound_office)
  /\ cal_attendees (run cf0 sound_office) 0 = Ok [ann]
  /\ map e_uid (stored (run cf0 sound_office)) = ["a1"; "a2"; "d1"]%string
  /\ get_free 100 (stored (run cf0 sound_office)) [bob] (732510 * DAY) (732513 * DAY) (9 * HOUR) (17 * HOUR) None
     = Ok [(732512 * DAY + 9 * HOUR, 732512 * DAY + 17 * HOUR)].
Proof.
  assert (X : forall t d, DAY <= t <= 732600 * DAY -> 0 <= d <= 10 * DAY -> sound_times (1095362 * DAY) t d).
  { intros t d A B. unfold sound_times, DAY, MAXORD in *. lia. }
  split; [|vm_compute; auto].
  apply run_path. intros s o Ho. unfold sound_office, office in Ho. cbn [app In] in Ho.
  repeat (destruct Ho as [<-|Ho]; [try exact I|]); [..|destruct Ho]; cbn [sound_op].
  1-3: split; [exists HOUR; split; [reflexivity|]; apply X; vm_compute; intuition congruence|discriminate].
  constructor; [|constructor; [|constructor]]; intros t d a (t0 & T & L & _ & E); cbn in T; injection T as <-; cbn in L; subst t.
  - cbn in E. subst d. split; [apply X; vm_compute; intuition congruence|]. intros rr R. cbn in R. injection R as <-.
    split; [|split; [|split; [|split; [|split]]]].
    + intros i l Z. cbn in Z. injection Z as <- <-. vm_compute. intuition congruence.
    + vm_compute. reflexivity.
    + now left.
    + intros u l Z. cbn in Z. injection Z as <- <-. eauto.
    + vm_compute. reflexivity.
    + intros [[l Z] _]. cbn in Z. discriminate Z.
  - cbn [v_dtend x_event local_time] in E. assert (d = HOUR) by (unfold p_at, combine, DAY, HOUR in *; lia). subst d.
    split; [apply X; vm_compute; intuition congruence|discriminate].
Qed.
