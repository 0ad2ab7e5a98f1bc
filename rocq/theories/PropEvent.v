(** Properties of single events: C35-C37, C41, C49, C59. *)
From Verif Require Import Base PyDate DateFacts Recurrent CalTime TimeProofs Event Storage QueryProofs EventProofs SpecProofs.
From Coq Require Import ZifyBool.
Ltac Zify.zify_post_hook ::= Z.div_mod_to_equations.
Local Opaque ord2ymd year_of month_of day_of ymd2ord days_in_month is_leap.

(** a specification to build examples from *)
Definition p_spec (t : Z) (d : option Z) (allday : bool) (org : attendee) (atts : list entry) : spec :=
  mkSpec t d "Meeting" "" "" "TENTATIVE" None allday [] false "PUBLIC" None org atts.
Definition p_at (n h : Z) : Z := n * DAY + h * HOUR.

(** * C35: all-day events cover whole days *)
Lemma allday_created uid s e : new_event uid s = Ok e -> s_allday s = true ->
  (forall d, s_duration s = Some d -> 0 <= d) ->
  e_dtstart e mod DAY = 0 /\ e_dtstart e <= s_dtstart s < e_dtstart e + DAY
  /\ exists k, e_duration e = Some (k * DAY) /\ 1 <= k
     /\ (s_duration s = None -> k = 1)
     /\ forall d, s_duration s = Some d -> d <= k * DAY /\ forall j, 1 <= j -> d <= j * DAY -> k <= j.
Proof.
  intros E A H. destruct (new_event_eq _ _ _ E) as (e0 & n & E0 & ->). rewrite A.
  pose proof (set_on_object_attrs s (blank uid)) as AT. rewrite E0 in AT. unfold mev in AT. cbn [fst] in AT.
  destruct AT as (_ & S & D & _).
  destruct (allday_spec e0) as (H1 & H2 & H3). rewrite H1, S.
  split; [unfold DAY; apply Z_mod_mult|]. split; [unfold dt_date, DAY; lia|].
  destruct (s_duration s) as [d|] eqn:SD.
  - destruct (H3 d D (H d eq_refl)) as (k & K1 & K2 & K3 & K4). exists k. split; [exact K1|]. split; [exact K2|].
    split; [discriminate|]. intros d' X. injection X as <-. auto.
  - exists 1. split; [now rewrite (H2 D)|]. split; [lia|]. split; [auto|discriminate].
Qed.

Theorem C35_allday_whole_days uid s e : new_event uid s = Ok e -> s_allday s = true ->
  (forall d, s_duration s = Some d -> 0 <= d) ->
  e_dtstart e mod DAY = 0 /\ e_dtstart e <= s_dtstart s < e_dtstart e + DAY
  /\ exists k, e_duration e = Some (k * DAY) /\ 1 <= k
     /\ (s_duration s = None -> k = 1)
     /\ forall d, s_duration s = Some d -> d <= k * DAY /\ forall j, 1 <= j -> d <= j * DAY -> k <= j.
Proof. exact (allday_created uid s e). Qed.
Print Assumptions C35_allday_whole_days.

Example C35_whole_days_case : exists e,
  new_event "u" (p_spec (p_at 732500 9) (Some (DAY + HOUR)) true (Some "ann"%string) []) = Ok e
  /\ e_dtstart e = p_at 732500 0 /\ e_duration e = Some (2 * DAY).
Proof. eexists. split; [vm_compute; reflexivity|]. vm_compute. auto. Qed.

(** other events keep their times, and the adjustment is idempotent *)
Lemma not_allday_created uid s e : new_event uid s = Ok e -> s_allday s = false ->
  e_dtstart e = s_dtstart s /\ e_duration e = s_duration s.
Proof.
  intros E A. destruct (new_event_eq _ _ _ E) as (e0 & n & E0 & ->). rewrite A.
  pose proof (set_on_object_attrs s (blank uid)) as AT. rewrite E0 in AT. unfold mev in AT. cbn [fst] in AT.
  destruct AT as (_ & S & D & _). auto.
Qed.

Theorem C35_other_events_unadjusted uid s e : new_event uid s = Ok e -> s_allday s = false ->
  e_dtstart e = s_dtstart s /\ e_duration e = s_duration s.
Proof. exact (not_allday_created uid s e). Qed.
Print Assumptions C35_other_events_unadjusted.

Theorem C35_adjust_idempotent e : (forall d, e_duration e = Some d -> 0 <= d) ->
  allday_adjust (allday_adjust e) = allday_adjust e.
Proof. exact (allday_again e). Qed.
Print Assumptions C35_adjust_idempotent.

Example C35_other_case : exists e,
  new_event "u" (p_spec (p_at 732500 9) (Some HOUR) false (Some "ann"%string) []) = Ok e
  /\ e_dtstart e = p_at 732500 9 /\ e_duration e = Some HOUR.
Proof. eexists. split; [vm_compute; reflexivity|]. vm_compute. auto. Qed.

(** * C59: an all-day event covers the time it was given.
    Refuted: the start moves back to midnight but the length is rounded up by
    itself, so the end of a span that runs into a further day is cut off. *)
Definition covers_span (s : spec) (e : event) : Prop :=
  forall d d', s_duration s = Some d -> e_duration e = Some d' ->
    e_dtstart e <= s_dtstart s /\ s_dtstart s + d <= e_dtstart e + d'.

Theorem C59_allday_covers_refuted : exists uid s e, new_event uid s = Ok e /\ s_allday s = true
  /\ (forall d, s_duration s = Some d -> 0 <= d) /\ ~ covers_span s e.
Proof.
  exists "u"%string, (p_spec (p_at 732500 22) (Some (4 * HOUR)) true (Some "ann"%string) []).
  eexists. split; [vm_compute; reflexivity|]. split; [reflexivity|]. split.
  - intros d E. change (Some (4 * HOUR) = Some d) in E. assert (X : d = 4 * HOUR) by congruence. rewrite X. vm_compute. discriminate.
  - intros H. specialize (H (4 * HOUR) DAY eq_refl eq_refl). vm_compute in H. destruct H as [_ H]. now apply H.
Qed.
Print Assumptions C59_allday_covers_refuted.

(** It does when the given span does not cross a midnight its rounded length
    misses; in particular when it starts at midnight. *)
Lemma allday_covers uid s e d : new_event uid s = Ok e -> s_allday s = true -> s_duration s = Some d -> 0 <= d ->
  (s_dtstart s mod DAY = 0 \/ d mod DAY <> 0 /\ s_dtstart s mod DAY + d mod DAY <= DAY) -> covers_span s e.
Proof.
  intros E A D0 P C. destruct (allday_created uid s e E A) as (M & B & k & K1 & K2 & _ & K3); [intros d' X; congruence|].
  destruct (K3 d D0) as [K4 K5]. intros d1 d2 X1 X2. assert (d1 = d) by congruence. assert (d2 = k * DAY) by congruence. subst d1 d2.
  split; [lia|]. assert (K6 : d mod DAY <> 0 -> (k - 1) * DAY <= d - d mod DAY).
  { intros NZ. assert (k <= d / DAY + 1).
    { apply K5; [assert (0 <= d / DAY) by (apply Z.div_pos; unfold DAY; lia); lia|]. unfold DAY in *. lia. }
    unfold DAY in *. lia. }
  destruct C as [C|[C1 C2]].
  - assert (s_dtstart s = e_dtstart e) by (unfold DAY in *; lia). lia.
  - assert (K7 : (k - 1) * DAY >= d - d mod DAY).
    { assert (d / DAY < k); [|unfold DAY in *; lia].
      destruct (Z_lt_le_dec (d / DAY) k) as [L|L]; [exact L|]. exfalso. assert (k * DAY <= d / DAY * DAY) by (unfold DAY in *; lia).
      unfold DAY in *. lia. }
    specialize (K6 C1). assert (s_dtstart s - e_dtstart e = s_dtstart s mod DAY) by (unfold DAY in *; lia). lia.
Qed.

Theorem C59_allday_covers_partial uid s e d : new_event uid s = Ok e -> s_allday s = true -> s_duration s = Some d -> 0 <= d ->
  (s_dtstart s mod DAY = 0 \/ d mod DAY <> 0 /\ s_dtstart s mod DAY + d mod DAY <= DAY) -> covers_span s e.
Proof. exact (allday_covers uid s e d). Qed.
Print Assumptions C59_allday_covers_partial.

Example C59_covers_case : exists e,
  new_event "u" (p_spec (p_at 732500 9) (Some (4 * HOUR)) true (Some "ann"%string) []) = Ok e
  /\ (4 * HOUR) mod DAY <> 0 /\ p_at 732500 9 mod DAY + (4 * HOUR) mod DAY <= DAY.
Proof. eexists. split; [vm_compute; reflexivity|]. vm_compute. split; congruence. Qed.

(** * C36: inviting never downgrades a participant *)
Theorem C36_invite e l : ~ In None l -> exists e' n,
  invite e l = (e', n, Ok tt)
  /\ same_attrs e e'
  /\ (forall i, In (Some i) l -> exists st, dget (e_state e') i = Some st)
  /\ (forall i, In (Some i) l -> dget (e_state e) i = None ->
        dget (e_state e') i = Some "NEEDS-ACTION"%string /\ dget (e_role e') i = Some "REQ-PARTICIPANT"%string)
  /\ (forall i, dget (e_state e) i <> None \/ ~ In (Some i) l ->
        dget (e_state e') i = dget (e_state e) i /\ dget (e_role e') i = dget (e_role e) i)
  /\ invite e' l = (e', [], Ok tt).
Proof.
  intros NN. destruct (invite_spec l e NN) as (e' & ids & E & A & _ & H3 & H4 & H5).
  exists e', (map (fun i => NParticipation (e_uid e) i None (Some "NEEDS-ACTION"%string)) ids).
  split; [exact E|]. split; [exact A|].
  assert (IN : forall i, In (Some i) l -> dget (e_state e) i = None -> str_in i ids = true).
  { intros i H1 H2. apply str_in_iff. apply H3. auto. }
  assert (OUT : forall i, dget (e_state e) i <> None \/ ~ In (Some i) l -> str_in i ids = false).
  { intros i H. destruct (str_in i ids) eqn:S; [|reflexivity]. apply str_in_iff, H3 in S. destruct S. destruct H; contradiction. }
  split; [|split; [|split]].
  - intros i Hi. rewrite H4. destruct (dget (e_state e) i) as [st|] eqn:S.
    + rewrite OUT; [eauto|]. left. congruence.
    + rewrite IN; eauto.
  - intros i H1 H2. now rewrite H4, H5, IN.
  - intros i H. now rewrite H4, H5, OUT.
  - exact (invite_again l e e' _ E NN).
Qed.
Print Assumptions C36_invite.

(** one notification for each attendee who was not yet a participant *)
Theorem C36_invite_notifies e l : ~ In None l -> exists e' ids,
  invite e l = (e', map (fun i => NParticipation (e_uid e) i None (Some "NEEDS-ACTION"%string)) ids, Ok tt)
  /\ NoDup ids /\ (forall i, In i ids <-> In (Some i) l /\ dget (e_state e) i = None).
Proof.
  intros NN. destruct (invite_spec l e NN) as (e' & ids & E & _ & H2 & H3 & _). exists e', ids. auto.
Qed.
Print Assumptions C36_invite_notifies.

Definition party : event :=
  mkEvent "p" (p_at 732500 18) (Some HOUR) "Party" "" "" "CONFIRMED" None false [] false "PUBLIC" None (Some "ann"%string)
    [("ann", "ACCEPTED"); ("bob", "DECLINED")]%string [("ann", "CHAIR"); ("bob", "OPT-PARTICIPANT")]%string.

Example C36_case : exists e', 
  invite party [Some "bob"; Some "cid"; Some "cid"]%string
  = (e', [NParticipation "p" "cid" None (Some "NEEDS-ACTION"%string)], Ok tt)
  /\ dget (e_state e') "bob" = Some "DECLINED"%string /\ dget (e_role e') "bob" = Some "OPT-PARTICIPANT"%string.
Proof. eexists. split; [vm_compute; reflexivity|]. vm_compute. auto. Qed.

(** * C37: participation status changes are observable exactly once *)
(** Nobody else and no other attribute is touched, whatever the call does.  That
    the dictionaries have no repeated key is an invariant of all histories
    ([reachable_dicts_ok] in SystemProofs.v). *)
Theorem C37_only_that_attendee e a st j : dicts_ok e -> Some j <> a ->
  dget (e_state (mev (set_status e a st))) j = dget (e_state e) j
  /\ dget (e_role (mev (set_status e a st))) j = dget (e_role e) j
  /\ same_attrs e (mev (set_status e a st)).
Proof.
  intros D N. destruct (set_status_others e a st j D N) as [H1 H2]. split; [exact H1|]. split; [exact H2|].
  apply set_status_attrs.
Qed.
Print Assumptions C37_only_that_attendee.

(** a successful call: the new status, and a notification exactly if it differs *)
Theorem C37_status_and_notification e i st e' n : dicts_ok e -> set_status e (Some i) st = (e', n, Ok tt) ->
  dget (e_state e') i = st
  /\ (dget (e_state e) i = st -> e' = e /\ n = [])
  /\ (dget (e_state e) i <> st -> n = [NParticipation (e_uid e) i (dget (e_state e) i) st]).
Proof.
  intros D E. destruct (set_status_result e i st n (Ok tt) e' D E eq_refl) as (H1 & H2 & _).
  split; [exact H1|]. split.
  - intros S. assert (K : known_status st).
    { destruct (known_dec st) as [K|K]; [exact K|]. destruct st as [s|]; [|exact I].
      rewrite set_status_unknown in E by exact K. discriminate. }
    rewrite (set_status_same e i st K S) in E. split; congruence.
  - intros S. destruct (opt_str_eqb (dget (e_state e) i) st) eqn:Q; [apply opt_str_eqb_eq in Q; contradiction|exact H2].
Qed.
Print Assumptions C37_status_and_notification.

(** documented statuses are accepted, others are rejected without any effect *)
Theorem C37_accepts_documented e i s : In s ["NEEDS-ACTION"; "ACCEPTED"; "DECLINED"; "TENTATIVE"; "DELEGATED"]%string ->
  exists e' n, set_status e (Some i) (Some s) = (e', n, Ok tt).
Proof.
  intros K. destruct (opt_str_eqb (dget (e_state e) i) (Some s)) eqn:Q.
  - apply opt_str_eqb_eq in Q. rewrite (set_status_same e i (Some s) K Q). eauto.
  - rewrite set_status_some; [eauto|exact K|]. intros X. apply opt_str_eqb_eq in X. congruence.
Qed.
Print Assumptions C37_accepts_documented.

Theorem C37_rejects_unknown e a s : ~ In s ["NEEDS-ACTION"; "ACCEPTED"; "DECLINED"; "TENTATIVE"; "DELEGATED"]%string ->
  set_status e a (Some s) = (e, [], Raise AssertionError).
Proof. exact (set_status_unknown e a s). Qed.
Print Assumptions C37_rejects_unknown.

Example C37_case : exists e', dicts_ok party /\
  set_status party (Some "bob"%string) (Some "TENTATIVE"%string)
  = (e', [NParticipation "p" "bob" (Some "DECLINED") (Some "TENTATIVE")], Ok tt)%string
  /\ dget (e_state e') "bob" = Some "TENTATIVE"%string.
Proof.
  eexists. split; [|split; [vm_compute; reflexivity|reflexivity]].
  split; (constructor; [cbn; intuition discriminate|constructor; [cbn; tauto|constructor]]).
Qed.

Example C37_rejects_case : ~ In "MAYBE"%string statuses
  /\ set_status party (Some "bob"%string) (Some "MAYBE"%string) = (party, [], Raise AssertionError).
Proof. split; [cbn; intuition discriminate|reflexivity]. Qed.

(** Replaying the notifications of a sequence of calls gives every status,
    provided no call failed with KeyError. *)
Theorem C37_replay_partial e ops e' n rs : dicts_ok e -> erun e ops = (e', n, rs) -> ~ In (Raise KeyError) rs ->
  replays (e_uid e) (dget (e_state e)) n (dget (e_state e')).
Proof. intros D E K. now destruct (erun_replays ops e e' n rs D E K). Qed.
Print Assumptions C37_replay_partial.

Example C37_replay_case : exists e' n rs,
  erun party [EInvite [Some "cid"]; EStatus (Some "cid") (Some "ACCEPTED"); EStatus (Some "cid") (Some "NO");
              ERole (Some "bob") "CHAIR"; EStatus (Some "bob") None]%string = (e', n, rs)
  /\ ~ In (Raise KeyError) rs /\ List.length n = 3%nat.
Proof.
  do 3 eexists. split; [vm_compute; reflexivity|]. split; [|reflexivity]. cbn. intuition discriminate.
Qed.

(** The proviso is needed: removing a participant without a role removes the
    status, raises KeyError and notifies nobody. *)
Theorem C37_replay_refuted : exists e ops e' n rs, dicts_ok e /\ erun e ops = (e', n, rs)
  /\ ~ replays (e_uid e) (dget (e_state e)) n (dget (e_state e')).
Proof.
  exists party, [EStatus (Some "cid") (Some "ACCEPTED"); EStatus (Some "cid") None]%string.
  do 3 eexists. split; [|split; [vm_compute; reflexivity|]].
  - split; (constructor; [cbn; intuition discriminate|constructor; [cbn; tauto|constructor]]).
  - cbn. intros (_ & _ & _ & H). specialize (H "cid"%string). vm_compute in H. discriminate.
Qed.
Print Assumptions C37_replay_refuted.

(** * C41: events compare consistently *)
(** Refuted: the comparison uses the unique id of one side only, so different
    events with the same start are "equal" although they hash differently. *)
Theorem C41_compare_refuted : exists a b, event_cmp a b = Eq /\ e_uid a <> e_uid b
  /\ event_hash_key a <> event_hash_key b.
Proof.
  exists (blank "a"), (blank "b"). vm_compute. intuition discriminate.
Qed.
Print Assumptions C41_compare_refuted.

Lemma string_compare_refl s : String.compare s s = Eq.
Proof.
  induction s as [|c s IH]; [reflexivity|]. cbn [String.compare].
  replace (Ascii.compare c c) with Eq; [exact IH|]. unfold Ascii.compare. symmetry. apply N.compare_refl.
Qed.

Lemma event_cmp_start a b : event_cmp a b = Z.compare (e_dtstart a) (e_dtstart b).
Proof.
  unfold event_cmp, cmp_pair. cbn [fst snd]. rewrite string_compare_refl.
  now destruct (e_dtstart a ?= e_dtstart b).
Qed.

(** The first half holds: events sort by start, the comparison is antisymmetric
    and transitive.  Missing: the unique id as tie breaker. *)
Theorem C41_compare_by_start_partial a b c :
  (event_cmp a b = Lt <-> e_dtstart a < e_dtstart b)
  /\ (event_cmp a b = Eq <-> e_dtstart a = e_dtstart b)
  /\ event_cmp b a = CompOpp (event_cmp a b)
  /\ (event_cmp a b <> Gt -> event_cmp b c <> Gt -> event_cmp a c <> Gt).
Proof.
  rewrite !event_cmp_start. split; [apply Z.compare_lt_iff|]. split; [apply Z.compare_eq_iff|].
  split; [apply Z.compare_antisym|]. rewrite !Z.compare_le_iff. lia.
Qed.
Print Assumptions C41_compare_by_start_partial.

Example C41_case : event_cmp (with_time (blank "b") 5 None) (with_time (blank "a") 7 None) = Lt.
Proof. reflexivity. Qed.

(** * C49: willModify predicts modification *)
(** Exact for a specification with an organizer, whose entries ask for the role
    REQ-PARTICIPANT and a status, once for each attendee, the organizer not among
    them.  [same_event] is Python's [==] attribute by attribute. *)
Theorem C49_will_modify_partial s e o : s_organizer s = Some o -> entries_plain (s_attendees s) ->
  NoDup (entry_ids (s_attendees s)) -> ~ In o (entry_ids (s_attendees s)) ->
  exists e', set_on_object s e = (e', [], Ok tt)
    /\ exists b, will_modify s e = Ok b /\ (b = false <-> same_event e e').
Proof. exact (will_modify_exact s e o). Qed.
Print Assumptions C49_will_modify_partial.

(** "no" means no change also when entries repeat *)
Theorem C49_no_means_no_change_partial s e : entries_plain (s_attendees s) -> will_modify s e = Ok false ->
  exists e', set_on_object s e = (e', [], Ok tt) /\ same_event e e'.
Proof. exact (will_modify_false_noop s e). Qed.
Print Assumptions C49_no_means_no_change_partial.

Definition p_event : event :=
  mkEvent "p" (p_at 732500 18) (Some HOUR) "Meeting" "" "" "TENTATIVE" None false [] false "PUBLIC" None (Some "ann"%string)
    [("ann", "ACCEPTED"); ("bob", "DECLINED")]%string [("ann", "REQ-PARTICIPANT"); ("bob", "REQ-PARTICIPANT")]%string.
Definition p_again (role st : string) : spec :=
  p_spec (p_at 732500 18) (Some HOUR) false (Some "ann"%string) [(Some "bob"%string, role, Some st)].

Example C49_case : entries_plain (s_attendees (p_again "REQ-PARTICIPANT" "DECLINED"))
  /\ will_modify (p_again "REQ-PARTICIPANT" "DECLINED") p_event = Ok false
  /\ will_modify (p_again "REQ-PARTICIPANT" "ACCEPTED") p_event = Ok true.
Proof.
  split; [|split; reflexivity]. intros a ro st [E|[]]. exists "bob"%string, "DECLINED"%string. split; [congruence|]. split; congruence.
Qed.

(** Refuted in general, in both directions: a changed role is not noticed... *)
Theorem C49_change_missed_refuted : exists s e e', will_modify s e = Ok false
  /\ set_on_object s e = (e', [], Ok tt) /\ ~ same_event e e'.
Proof.
  exists (p_again "CHAIR" "DECLINED"), p_event. eexists. split; [reflexivity|]. split; [vm_compute; reflexivity|].
  unfold same_event. intros H. decompose [and] H.
  match goal with H : forall i, dget (e_role _) i = _ |- _ => specialize (H "bob"%string); vm_compute in H; discriminate end.
Qed.
Print Assumptions C49_change_missed_refuted.

(** ... an attendee who already has another role is reported as a change... *)
Theorem C49_spurious_change_refuted : exists s e, will_modify s e = Ok true
  /\ exists e', set_on_object s e = (e', [], Ok tt) /\ same_event e e'.
Proof.
  exists (p_again "CHAIR" "DECLINED"), (with_role p_event [("ann", "REQ-PARTICIPANT"); ("bob", "CHAIR")]%string).
  split; [reflexivity|]. eexists. split; [vm_compute; reflexivity|]. unfold same_event. cbn.
  repeat (split; [reflexivity || tauto|]). auto.
Qed.
Print Assumptions C49_spurious_change_refuted.

(** ... and without an organizer it raises although applying works. *)
Theorem C49_raises_refuted : exists s e, will_modify s e = Raise AttributeError
  /\ exists e', set_on_object s e = (e', [], Ok tt).
Proof.
  exists (p_spec (p_at 732500 18) (Some HOUR) false None []), p_event. split; [reflexivity|]. eexists. vm_compute. reflexivity.
Qed.
Print Assumptions C49_raises_refuted.
