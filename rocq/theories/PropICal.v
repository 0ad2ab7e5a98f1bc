(** Properties of export and import, of the textual form of rules and of the
    attendee search: C47, C48, C50-C52, C54, C55, C61, C62. *)
From Verif Require Import Base PyDate DateFacts Recurrent RecurMisc CalTime TimeProofs Event Storage ICal System
  QueryProofs BlockProofs EventProofs SpecProofs SystemProofs StoreProofs IdProofs ImportProofs PropEvent PropSystem
  ICalProofs ImportContent RuleText SpecText TextProofs.
From Coq Require Import ZifyBool.
Ltac Zify.zify_post_hook ::= Z.div_mod_to_equations.
Local Opaque ord2ymd year_of month_of day_of ymd2ord days_in_month is_leap.

(** an event specification with a rule *)
Definition r_spec (t : Z) (d : Z) (org : attendee) (r : option rule) : spec :=
  mkSpec t (Some d) "Meeting" "" "" "CONFIRMED" r false [] false "PUBLIC" None org [].

(** the state after importing what a calendar has just exported *)
Definition reimport (s : system) (c : nat) : smut unit :=
  match export_cal s c (None, None) None with
  | Ok vs => step cf0 s (OImport c (Ok (Some (map wire vs))) (None, None) None false)
  | _ => sfail s ValueError
  end.

(** * C47: export followed by import changes nothing *)
(** Refuted in several ways: events organized by somebody else get a new
    organizer; exceptions and weekdays of a rule are lost; an event that does not
    start on a full second is moved. *)
Definition office_with (sp : spec) : system :=
  run cf0 (office ++ [OCreate (Some "x"%string) sp 0]).

Definition changes (s : system) (Q : event -> event -> Prop) : Prop :=
  reachable cf0 s /\ srs (reimport s 0) = Ok tt /\ In (NModified "x"%string) (snt (reimport s 0))
  /\ exists r, get_event s "x" = Ok r /\ get_event (sst (reimport s 0)) "x" = Ok r
     /\ Q (obj s r) (obj (sst (reimport s 0)) r).

Theorem C47_roundtrip_refuted :
  (exists s, changes s (fun e e' => e_organizer e = bob /\ e_organizer e' = ann))
  /\ (exists s, changes s (fun e e' => exists r r', e_recurrence e = Some r /\ e_recurrence e' = Some r'
        /\ r_exceptions r = [VDate 732503] /\ r_exceptions r' = []))
  /\ (exists s, changes s (fun e e' => exists r r', e_recurrence e = Some r /\ e_recurrence e' = Some r'
        /\ r_weekdays r = [0; 2] /\ r_weekdays r' = []))
  /\ (exists s, changes s (fun e e' => e_dtstart e' = e_dtstart e - 1)).
Proof.
  repeat split.
  - exists (run cf0 (office ++ [OCreate (Some "x"%string) (p_spec (p_at 732503 9) (Some HOUR) false bob [(ann, "REQ-PARTICIPANT", Some "ACCEPTED")]%string) 0])).
    split; [apply run_reachable|]. split; [vm_compute; reflexivity|]. split; [vm_compute; auto 10|].
    exists 3%nat. split; [vm_compute; reflexivity|]. split; [vm_compute; reflexivity|]. vm_compute. auto.
  - exists (office_with (r_spec (p_at 732502 9) HOUR ann (Some (mkRule KDaily 1 None None [VDate 732503] [] "monthday")))).
    split; [apply run_reachable|]. split; [vm_compute; reflexivity|]. split; [vm_compute; auto 10|].
    exists 3%nat. split; [vm_compute; reflexivity|]. split; [vm_compute; reflexivity|].
    do 2 eexists. split; [vm_compute; reflexivity|]. split; [vm_compute; reflexivity|]. vm_compute. auto.
  - exists (office_with (r_spec (p_at 732502 9) HOUR ann (Some (mkRule KWeekly 1 None None [] [0; 2] "monthday")))).
    split; [apply run_reachable|]. split; [vm_compute; reflexivity|]. split; [vm_compute; auto 10|].
    exists 3%nat. split; [vm_compute; reflexivity|]. split; [vm_compute; reflexivity|].
    do 2 eexists. split; [vm_compute; reflexivity|]. split; [vm_compute; reflexivity|]. vm_compute. auto.
  - exists (office_with (r_spec (p_at 732502 9 + 1) HOUR ann None)).
    split; [apply run_reachable|]. split; [vm_compute; reflexivity|]. split; [vm_compute; auto 10|].
    exists 3%nat. split; [vm_compute; reflexivity|]. split; [vm_compute; reflexivity|]. vm_compute. reflexivity.
Qed.
Print Assumptions C47_roundtrip_refuted.

(** It holds, for the whole state and with or without synchronization, when
    every event shown is [exportable]: organized by the calendar's main attendee
    in the default role, on full seconds (whole days if all-day), and with a rule
    that has no exceptions, weekdays or monthly variant. *)
Theorem C47_roundtrip_partial cf s c p cr main evs : reachable cf s ->
  main_attendee s c = Ok (Some main) -> cal_events s c p cr = Ok evs -> Forall (exportable main) evs ->
  exists vs, export_cal s c p cr = Ok vs
    /\ forall sync, step cf s (OImport c (Ok (Some (map wire vs))) p cr sync) = (s, [], Ok tt).
Proof. intros H. exact (import_own_export cf s c p cr main evs (reachable_store cf s H)). Qed.
Print Assumptions C47_roundtrip_partial.

(** an all-day event, a repeating one and a plain one *)
Definition x_diary : system := run cf0
  [OAttendee "ann" "Ann" "INDIVIDUAL"; OCalendar; OAddAttendee 0 ann;
   OCreate (Some "a") (p_spec (p_at 732500 0) (Some DAY) true ann []) 0;
   OCreate (Some "b") (r_spec (p_at 732501 9) HOUR ann (Some (mkRule KMonthly 2 None (Some (VDate 733000)) [] [] "monthday"))) 0;
   OCreate (Some "c") (p_spec (p_at 732501 9) (Some HOUR) false ann [(bob, "CHAIR", Some "TENTATIVE")]) 0]%string.

Example C47_case : exists evs, cal_events x_diary 0 (None, None) None = Ok evs /\ List.length evs = 3%nat
  /\ main_attendee x_diary 0 = Ok (Some "ann"%string) /\ Forall (exportable "ann") evs.
Proof.
  eexists. split; [vm_compute; reflexivity|]. split; [reflexivity|]. split; [vm_compute; reflexivity|].
  assert (T : forall e d, e_duration e = Some d -> dt_ok (e_dtstart e + d) = true ->
    (if e_allday e then (e_dtstart e mod DAY = 0 /\ d mod DAY = 0) else (e_dtstart e mod SECOND = 0 /\ d mod SECOND = 0)) ->
    (forall r, e_recurrence e = Some r -> rule_exportable r) -> e_document e <> Some ""%string -> e_organizer e = Some "ann"%string ->
    dget (e_state e) "ann" = Some "ACCEPTED"%string -> dget (e_role e) "ann" = Some "REQ-PARTICIPANT"%string -> exportable "ann" e).
  { intros e d A B C D E F G H. split; [exists d; split; auto|]. auto 10. }
  repeat (apply Forall_cons || apply Forall_nil); (eapply T; [reflexivity|vm_compute; reflexivity|vm_compute; auto| |discriminate|reflexivity|vm_compute; reflexivity|vm_compute; reflexivity]);
    intros r E; cbn in E; try discriminate E. injection E as <-. vm_compute. auto 10.
Qed.

(** * C48: start, end and duration of imported events *)
(** an event that the calendar already showed *)
Theorem C48_existing cf s c vs p cr sync s' n v u : reachable cf s -> NoDup (import_uids vs) ->
  step cf s (OImport c (Ok (Some vs)) p cr sync) = (s', n, Ok tt) -> In v vs -> v_uid v = Some u ->
  visible s c p cr u ->
  exists r d, get_event s' u = Ok r /\ e_duration (obj s' r) = Some d
    /\ says_times (cf_tz cf) v (e_dtstart (obj s' r)) d (e_allday (obj s' r)).
Proof.
  intros H ND E Hv V VIS. apply reachable_store in H. cbn [step] in E.
  destruct (import_outcome cf s c vs p cr sync H ND ltac:(rewrite E; reflexivity) v u Hv V) as (r & D & O).
  rewrite E in D, O. unfold sst in D, O. cbn [fst] in D, O. unfold get_event. rewrite D.
  destruct O as [(_ & ((d & O1 & O2) & _) & _)|[(O & _)|(O & _)]].
  - exists r, d. auto.
  - exfalso. destruct VIS as (evs & e & V1 & V2 & <-). destruct (cal_events_known s c p cr evs e H V1 V2) as (k & X & _). congruence.
  - contradiction.
Qed.
Print Assumptions C48_existing.

(** a new event: as the text says, but an all-day event occupies whole days and
    at least one *)
Theorem C48_new cf s c vs p cr sync s' n v u : reachable cf s -> NoDup (import_uids vs) ->
  step cf s (OImport c (Ok (Some vs)) p cr sync) = (s', n, Ok tt) -> In v vs -> v_uid v = Some u ->
  has_event s u = false ->
  exists r t d allday, get_event s' u = Ok r /\ says_times (cf_tz cf) v t d allday /\ e_allday (obj s' r) = allday
    /\ e_dtstart (obj s' r) = t
    /\ (allday = false -> e_duration (obj s' r) = Some d)
    /\ (allday = true -> 0 <= d -> exists k, e_duration (obj s' r) = Some (k * DAY) /\ 1 <= k /\ d <= k * DAY
          /\ forall j, 1 <= j -> d <= j * DAY -> k <= j).
Proof.
  intros H ND E Hv V NEW. apply reachable_store in H. cbn [step] in E.
  destruct (import_outcome cf s c vs p cr sync H ND ltac:(rewrite E; reflexivity) v u Hv V) as (r & D & O).
  rewrite E in D, O. unfold sst in D, O. cbn [fst] in D, O. unfold get_event. rewrite D. rewrite has_event_dget in NEW.
  destruct (dget (sys_store s) u) eqn:DS; [discriminate|].
  destruct O as [(O & _)|[(_ & (t & d & a & T & _ & A & X) & _)|(_ & O & _)]]; [|clear DS|congruence].
  - exfalso. destruct O as (evs & e & V1 & V2 & <-). destruct (cal_events_known s c p cr evs e H V1 V2) as (k & X & _). congruence.
  - exists r, t, d, a. split; [reflexivity|]. split; [exact T|]. split; [exact A|]. destruct a.
    + destruct X as [X1 X2]. split; [|split; [discriminate|auto]]. rewrite X1.
      destruct T as (t0 & _ & L & AD & _). destruct t0; try discriminate AD. cbn in L. subst t. unfold DAY. lia.
    + destruct X as [X1 X2]. split; [exact X1|]. split; [auto|discriminate].
Qed.
Print Assumptions C48_new.

(** so a new event with a DATE start and no end lasts one day, with a DATE-TIME
    start no time at all *)
Theorem C48_new_missing_end cf s c vs p cr sync s' n v u t0 : reachable cf s -> NoDup (import_uids vs) ->
  step cf s (OImport c (Ok (Some vs)) p cr sync) = (s', n, Ok tt) -> In v vs -> v_uid v = Some u ->
  has_event s u = false -> v_dtend v = None -> v_duration v = None -> v_dtstart v = Some t0 ->
  exists r, get_event s' u = Ok r
    /\ e_duration (obj s' r) = Some (match t0 with IDate _ => DAY | _ => 0 end).
Proof.
  intros H ND E Hv V NEW E1 E2 E3.
  destruct (C48_new cf s c vs p cr sync s' n v u H ND E Hv V NEW) as (r & t & d & a & G & (t1 & T1 & _ & TA & TD) & _ & _ & F & G2).
  exists r. split; [exact G|]. rewrite E1, E2 in TD. subst d. assert (t1 = t0) by congruence. subst t1.
  destruct t0; cbn in TA; subst a; [|now apply F|now apply F].
  destruct (G2 eq_refl ltac:(lia)) as (k & -> & K1 & _ & K3). specialize (K3 1 ltac:(lia) ltac:(unfold DAY; lia)).
  f_equal. unfold DAY. lia.
Qed.
Print Assumptions C48_new_missing_end.

(** Refuted for an event the calendar already shows: a DATE start without an end
    leaves it with no duration at all. *)
Theorem C48_missing_end_refuted : exists s c vs v u d, reachable cf0 s /\ NoDup (import_uids vs)
  /\ srs (step cf0 s (OImport c (Ok (Some vs)) (None, None) None false)) = Ok tt
  /\ In v vs /\ v_uid v = Some u /\ v_dtstart v = Some (IDate d) /\ v_dtend v = None /\ v_duration v = None
  /\ exists r, get_event (sst (step cf0 s (OImport c (Ok (Some vs)) (None, None) None false))) u = Ok r
     /\ e_allday (obj (sst (step cf0 s (OImport c (Ok (Some vs)) (None, None) None false))) r) = true
     /\ e_duration (obj (sst (step cf0 s (OImport c (Ok (Some vs)) (None, None) None false))) r) = Some 0.
Proof.
  set (v := mkV (Some "a1"%string) (Some (IDate 732500)) None None (Some "Day"%string) None None None None [] [] None None None None).
  exists (run cf0 office), O, [v], v, "a1"%string, 732500. split; [apply run_reachable|].
  split; [repeat constructor; intros []|]. split; [vm_compute; reflexivity|]. split; [now left|].
  do 4 (split; [reflexivity|]). exists O. vm_compute. auto.
Qed.
Print Assumptions C48_missing_end_refuted.

(** a text with an existing and a new event *)
Definition x_two : list vevent :=
  [mkV (Some "a1") (Some (IFloat (p_at 732500 9))) (Some (IFloat (p_at 732500 11))) (Some DAY) (Some "Changed") None None None None [] [] None None None None;
   mkV (Some "n1") (Some (IDate 732510)) None None (Some "New") None None None (Some "bob") [] ["work"] (Some "TRANSPARENT") None None None]%string.

Example C48_case : NoDup (import_uids x_two) /\ visible (run cf0 office) 0 (None, None) None "a1"
  /\ has_event (run cf0 office) "n1" = false
  /\ srs (step cf0 (run cf0 office) (OImport 0 (Ok (Some x_two)) (None, None) None true)) = Ok tt
  /\ e_duration (obj (sst (step cf0 (run cf0 office) (OImport 0 (Ok (Some x_two)) (None, None) None true))) 0) = Some (2 * HOUR).
Proof.
  split; [|split; [|split; [|split]]].
  - cbn. constructor; [intros [X|[]]; discriminate X|]. constructor; [intros []|constructor].
  - eexists. eexists. split; [vm_compute; reflexivity|]. split; [left; reflexivity|]. reflexivity.
  - vm_compute. reflexivity.
  - vm_compute. reflexivity.
  - vm_compute. reflexivity.
Qed.

(** * C61: an import brings in what the text says *)
Theorem C61_content cf s c vs p cr sync s' n v u : reachable cf s -> NoDup (import_uids vs) ->
  step cf s (OImport c (Ok (Some vs)) p cr sync) = (s', n, Ok tt) -> In v vs -> v_uid v = Some u ->
  visible s c p cr u \/ has_event s u = false ->
  exists r, get_event s' u = Ok r /\ says_text v (obj s' r)
    /\ says_organizer (source_knows s) (main_attendee s c) v (get_organizer_id (obj s' r)).
Proof.
  intros H ND E Hv V W. apply reachable_store in H. cbn [step] in E.
  destruct (import_outcome cf s c vs p cr sync H ND ltac:(rewrite E; reflexivity) v u Hv V) as (r & D & O).
  rewrite E in D, O. unfold sst in D, O. cbn [fst] in D, O. unfold get_event. rewrite D. exists r. split; [reflexivity|].
  destruct O as [(_ & (_ & O1) & O2 & _)|[(_ & (t & d & a & _ & O1 & _) & O2 & _)|(O1 & O2 & _)]]; [auto|auto|].
  exfalso. destruct W as [W|W]; [contradiction|]. rewrite has_event_dget, O2 in W. discriminate.
Qed.
Print Assumptions C61_content.

Example C61_case : exists r, let s' := sst (step cf0 (run cf0 office) (OImport 0 (Ok (Some x_two)) (None, None) None true)) in
  get_event s' "n1" = Ok r /\ e_title (obj s' r) = "New"%string /\ e_categories (obj s' r) = ["work"%string]
  /\ e_transparent (obj s' r) = true /\ e_organizer (obj s' r) = bob /\ e_status (obj s' r) = "TENTATIVE"%string.
Proof. exists 3%nat. vm_compute. auto 10. Qed.

(** * C62: exported events can be carried over to another store *)
Definition same_public (e e' : event) : Prop :=
  e_uid e' = e_uid e /\ e_dtstart e' = e_dtstart e /\ e_duration e' = e_duration e /\ e_title e' = e_title e
  /\ e_description e' = e_description e /\ e_location e' = e_location e /\ e_status e' = e_status e
  /\ opt_rule_eqb (e_recurrence e') (e_recurrence e) = true /\ e_allday e' = e_allday e
  /\ (forall c, In c (e_categories e') <-> In c (e_categories e))
  /\ e_transparent e' = e_transparent e /\ e_access e' = e_access e /\ e_document e' = e_document e.

(** like [exportable], whoever takes part; an all-day event lasts at least a day *)
Definition transferable (e : event) : Prop :=
  (exists d, times_exportable e d /\ (e_allday e = true -> DAY <= d))
  /\ (forall r, e_recurrence e = Some r -> rule_exportable r) /\ e_document e <> Some ""%string.

Lemma rule_eq_sym a b : rule_eq a b = true -> rule_eq b a = true.
Proof. rewrite !rule_eq_tuple. congruence. Qed.
Lemma rule_eq_trans a b c : rule_eq a b = true -> rule_eq b c = true -> rule_eq a c = true.
Proof. rewrite !rule_eq_tuple. congruence. Qed.

Lemma text_truthy s : text (truthy s) ""%string = s.
Proof. now destruct s. Qed.

Lemma export_says tz e v : transferable e -> export_event false e = Ok v ->
  v_uid v = Some (e_uid e)
  /\ (forall e', created tz (wire v) e' -> e_uid e' = e_uid e -> same_public e e').
Proof.
  intros ((d & (D & OK & T) & LONG) & R & DOC). unfold export_event. rewrite D. cbn [end_of]. unfold dt_add. rewrite OK. cbn [rbind].
  intros X. injection X as <-. split; [reflexivity|].
  intros e' (t & d' & a & (t0 & T0 & L0 & A0 & L1) & TX & EA & EX) U.
  cbn [wire v_dtstart v_dtend v_duration] in *. injection T0 as <-.
  assert (ad : a = e_allday e) by (rewrite A0; now destruct (e_allday e)). clear A0.
  assert (TT : t = e_dtstart e /\ d' = d).
  { destruct (e_allday e); cbn [wire_time local_time] in L0, L1; unfold to_second, dt_date, SECOND, DAY in *; lia. }
  destruct TT as [-> ->]. unfold same_public.
  assert (TIME : e_dtstart e' = e_dtstart e /\ e_duration e' = Some d).
  { destruct a; [|exact EX]. destruct EX as [E1 E2]. rewrite <- ad in *. specialize (LONG eq_refl). destruct T as [T1 T2].
    split; [rewrite E1; unfold DAY in *; lia|]. destruct (E2 ltac:(unfold DAY in *; lia)) as (k & -> & K1 & K2 & K3).
    f_equal. specialize (K3 (d / DAY) ltac:(unfold DAY in *; lia) ltac:(unfold DAY in *; lia)). unfold DAY in *. lia. }
  destruct TIME as [-> ->]. destruct TX as (X1 & X2 & X3 & X4 & X5 & X6 & X7 & X8 & X9).
  cbn [wire v_summary v_description v_location v_status v_categories v_transp v_class v_attach v_rrule text] in *.
  rewrite !text_truthy in *.
  split; [exact U|]. split; [reflexivity|]. split; [now rewrite D|]. do 4 (split; [assumption|]).
  split.
  - destruct (e_recurrence e) as [r|] eqn:ER.
    + destruct X9 as (r1 & r2 & -> & I1 & Q). destruct (rule_round r (R r eq_refl)) as (r3 & I2 & Q2).
      assert (r3 = r2) by congruence. subst. cbn. eapply rule_eq_trans; [exact Q|now apply rule_eq_sym].
    + rewrite X9. reflexivity.
  - split; [congruence|]. split; [exact X5|]. split.
    + destruct (e_transparent e); destruct (e_transparent e'); try reflexivity; exfalso.
      * assert (false = true) by (now apply X6). discriminate.
      * assert (Z : Some "OPAQUE"%string = Some "TRANSPARENT"%string) by (now apply X6). discriminate Z.
    + split; [exact X7|]. rewrite X8. destruct (e_document e) as [[|ch x]|]; [congruence|reflexivity|reflexivity].
Qed.

Lemma rmap_forall2 {A B} (f : A -> res B) l : forall l', rmap f l = Ok l' -> Forall2 (fun x y => f x = Ok y) l l'.
Proof.
  induction l as [|x l IH]; cbn; intros l' H; [assert (l' = []) by congruence; subst; constructor|].
  destruct (f x) as [y| |] eqn:E; try discriminate. cbn in H. destruct (rmap f l) as [ys| |] eqn:E2; try discriminate. cbn in H.
  assert (l' = y :: ys) by congruence. subst. constructor; [exact E|]. now apply IH.
Qed.

(** The export of one calendar imported through a calendar of another store: the
    events that were not there before arrive with the same data.  Participants
    are not exported, so that they do not.  Missing: the events that are not
    [transferable], see C47_roundtrip_refuted. *)
Theorem C62_transfer_partial cf1 s1 c1 p1 cr1 evs vs cf2 s2 c2 p2 cr2 sync s2' n :
  reachable cf1 s1 -> reachable cf2 s2 ->
  cal_events s1 c1 p1 cr1 = Ok evs -> export_cal s1 c1 p1 cr1 = Ok vs -> NoDup (map e_uid evs) ->
  step cf2 s2 (OImport c2 (Ok (Some (map wire vs))) p2 cr2 sync) = (s2', n, Ok tt) ->
  forall e, In e evs -> transferable e -> has_event s2 (e_uid e) = false ->
  exists r, get_event s2' (e_uid e) = Ok r /\ same_public e (obj s2' r)
    /\ main_attendee s2 c2 = Ok (get_organizer_id (obj s2' r)).
Proof.
  intros H1 H2 E1 E2 ND ST e He TR NEW.
  unfold export_cal in E2. rewrite E1 in E2. cbn [rbind] in E2. apply rmap_forall2 in E2.
  assert (UID : forall e v, export_event false e = Ok v -> v_uid v = Some (e_uid e)).
  { intros e0 v. unfold export_event. destruct (end_of _ _); try discriminate. cbn. intros X. injection X as <-. reflexivity. }
  assert (U : import_uids (map wire vs) = map e_uid evs).
  { clear - E2 UID. induction E2 as [|x y l l' Hx _ IH]; [reflexivity|]. unfold import_uids in *. cbn [map flat_map].
    change (v_uid (wire y)) with (v_uid y). rewrite (UID x y Hx), IH. reflexivity. }
  assert (V : exists v, In v vs /\ export_event false e = Ok v).
  { clear - E2 He. induction E2 as [|x y l l' Hx _ IH]; [destruct He|]. destruct He as [->|He]; [exists y; split; [now left|exact Hx]|].
    destruct (IH He) as (v & Hv & X). exists v. split; [now right|exact X]. }
  destruct V as (v & Hv & EX). assert (UV := UID e v EX).
  assert (ND' : NoDup (import_uids (map wire vs))) by now rewrite U.
  assert (Hw : In (wire v) (map wire vs)) by now apply in_map.
  pose proof (reachable_store cf2 s2 H2) as I2. cbn [step] in ST.
  destruct (import_outcome cf2 s2 c2 (map wire vs) p2 cr2 sync I2 ND' ltac:(rewrite ST; reflexivity) (wire v) (e_uid e) Hw UV) as (r & D & O).
  destruct (C61_content cf2 s2 c2 (map wire vs) p2 cr2 sync s2' n (wire v) (e_uid e) H2 ND' ST Hw UV (or_intror NEW)) as (r' & G & _ & ORG).
  rewrite ST in D, O. unfold sst in D, O. cbn [fst] in D, O. unfold get_event in *. rewrite D in *. assert (r' = r) by congruence. subst r'.
  exists r. split; [reflexivity|]. rewrite has_event_dget in NEW. destruct (dget (sys_store s2) (e_uid e)) eqn:DS; [discriminate|].
  destruct O as [(O & _)|[(_ & CR & _)|(_ & O & _)]]; [| |congruence].
  - exfalso. destruct O as (evs' & e' & V1 & V2 & V3). destruct (cal_events_known s2 c2 p2 cr2 evs' e' I2 V1 V2) as (k & X & _). congruence.
  - split.
    + destruct (export_says (cf_tz cf2) e v TR EX) as [_ X]. apply X; [exact CR|].
      assert (I3 : store_inv s2').
      { pose proof (step_tracks cf2 s2 (OImport c2 (Ok (Some (map wire vs))) p2 cr2 sync) I2) as (I3 & _). cbn [step] in I3. now rewrite ST in I3. }
      destruct I3 as [_ I3]. now destruct (I3 _ _ D) as (_ & Y & _).
    + unfold says_organizer in ORG. unfold export_event in EX. destruct (end_of _ _); try discriminate. cbn in EX. injection EX as <-.
      cbn in ORG. exact ORG.
Qed.
Print Assumptions C62_transfer_partial.

Example C62_case : exists evs vs, cal_events x_diary 0 (None, None) None = Ok evs /\ export_cal x_diary 0 (None, None) None = Ok vs
  /\ NoDup (map e_uid evs) /\ List.length evs = 3%nat
  /\ (forall e, In e evs -> has_event (run cf0 office) (e_uid e) = false)
  /\ srs (step cf0 (run cf0 office) (OImport 0 (Ok (Some (map wire vs))) (None, None) None false)) = Ok tt.
Proof.
  eexists. eexists. split; [vm_compute; reflexivity|]. split; [vm_compute; reflexivity|]. split; [|split; [reflexivity|split]].
  - cbn. repeat (constructor; [cbn; intuition discriminate|]). constructor.
  - intros e H. cbn in H. repeat (destruct H as [<-|H]; [vm_compute; reflexivity|]). destruct H.
  - vm_compute. reflexivity.
Qed.

(** * C50: the private export reveals only time information *)
Theorem C50_private e1 e2 : e_uid e1 = e_uid e2 -> e_dtstart e1 = e_dtstart e2 -> e_duration e1 = e_duration e2 ->
  e_allday e1 = e_allday e2 -> e_recurrence e1 = e_recurrence e2 -> e_transparent e1 = e_transparent e2 ->
  e_access e1 = e_access e2 -> export_event true e1 = export_event true e2.
Proof. intros E1 E2 E3 E4 E5 E6 E7. unfold export_event. now rewrite E1, E2, E3, E4, E5, E6, E7. Qed.
Print Assumptions C50_private.

(** and it is what the full export says about time, without the rest *)
Theorem C50_private_content e : match export_event true e, export_event false e with
  | Ok v, Ok w =>
      v_uid v = v_uid w /\ v_dtstart v = v_dtstart w /\ v_dtend v = v_dtend w /\ v_duration v = v_duration w
      /\ v_rrule v = v_rrule w /\ v_transp v = v_transp w /\ v_class v = v_class w
      /\ v_summary v = Some "Private Event"%string /\ v_description v = None /\ v_location v = None /\ v_status v = None
      /\ v_organizer v = None /\ v_attendees v = [] /\ v_categories v = [] /\ v_attach v = None
  | Raise x, Raise y => x = y
  | OutOfFuel, OutOfFuel => True
  | _, _ => False
  end.
Proof. unfold export_event. destruct (end_of (e_dtstart e) (e_duration e)); cbn; auto. repeat split. Qed.
Print Assumptions C50_private_content.

Example C50_case : exists e1 e2 v, new_event "u" (r_spec (p_at 732502 9) HOUR ann None) = Ok e1
  /\ new_event "u" (mkSpec (p_at 732502 9) (Some HOUR) "Secret" "Very" "Room 1" "TENTATIVE" None false ["x"] false "PUBLIC" (Some "doc") bob [(ann, "CHAIR", Some "DECLINED")])%string = Ok e2
  /\ e1 <> e2 /\ export_event true e1 = Ok v /\ export_event true e2 = Ok v.
Proof.
  eexists. eexists. eexists. split; [vm_compute; reflexivity|]. split; [vm_compute; reflexivity|]. split; [discriminate|].
  split; [vm_compute; reflexivity|]. vm_compute. reflexivity.
Qed.

(** * C51: line ending repair *)
Fixpoint no_char (c : ascii) (s : string) : bool :=
  match s with EmptyString => true | String x r => negb (Ascii.eqb x c) && no_char c r end.
Fixpoint remove_char (c : ascii) (s : string) : string :=
  match s with EmptyString => EmptyString | String x r => if Ascii.eqb x c then remove_char c r else String x (remove_char c r) end.
Definition starts_with (c : ascii) (s : string) : bool := match s with String x _ => Ascii.eqb x c | _ => false end.

(** repairing twice changes nothing more: for every text *)
Theorem C51_idempotent s : repair_text (repair_text s) = repair_text s.
Proof.
  destruct (repair_cases s) as [(_ & E & _)|[(b & _ & E)|(a & c & b & -> & F & E)]]; [now rewrite E|now rewrite E|].
  rewrite E. destruct (Ascii.eqb c CR) eqn:C; [rewrite E; reflexivity|].
  assert (X : crlf_of (a ++ String c (String LF b)) = (a ++ String c (String CR (String LF (crlf_of b))))%string).
  { replace (a ++ String c (String LF b))%string with ((a ++ String c "") ++ String LF b)%string by now rewrite app_assoc_s.
    rewrite crlf_of_app, (crlf_of_none _ F), app_assoc_s. reflexivity. }
  rewrite X. set (b' := crlf_of b).
  assert (G : find_lf (a ++ String c (String CR (String LF b'))) = Some (S (S (String.length a)))).
  { assert (G0 : find_lf (a ++ String c (String CR "")) = None).
    { clear - F. induction a as [|x a IH]; cbn [append find_lf] in *; destruct (Ascii.eqb _ LF); try discriminate; [reflexivity|].
      destruct (find_lf (a ++ String c "")) eqn:E; [discriminate|]. now rewrite IH. }
    pose proof (find_lf_app _ b' G0) as G1. rewrite app_assoc_s in G1. cbn [append] in G1. rewrite G1. f_equal.
    clear. induction a as [|x a IH]; [reflexivity|]. cbn. now rewrite IH. }
  unfold repair_text. rewrite G.
  assert (H : String.get (S (String.length a)) (a ++ String c (String CR (String LF b'))) = Some CR).
  { clear. induction a as [|x a IH]; [reflexivity|exact IH]. }
  rewrite H. reflexivity.
Qed.
Print Assumptions C51_idempotent.

(** text whose line ends are CRLF already is left alone *)
Theorem C51_crlf_unchanged s : all_crlf LF s = true -> repair_text s = s.
Proof.
  intros H. destruct (repair_cases s) as [(_ & E & _)|[(b & -> & E)|(a & c & b & -> & F & E)]]; [exact E|exact E|].
  apply all_crlf_app in H. subst c. exact E.
Qed.
Print Assumptions C51_crlf_unchanged.

(** Refuted in general: a text starting with a newline keeps its bare newlines,
    and a text with mixed line ends gets doubled carriage returns or keeps its
    bare newlines. *)
Definition T (l : list string) : string := String.concat "" l.
Definition nl : string := String LF "".
Theorem C51_repair_refuted :
  (exists s, no_char CR s = true /\ no_char LF s = false /\ repair_text s = s)
  /\ (exists a b, repair_text (T ["A"; nl; a; String CR nl; b]%string) = T ["A"; String CR nl; a; String CR (String CR nl); b]%string)
  /\ (exists a b, repair_text (T ["A"; String CR nl; a; nl; b]%string) = T ["A"; String CR nl; a; nl; b]%string).
Proof.
  split; [|split].
  - exists (T [nl; "A"; nl; "B"])%string. vm_compute. auto.
  - exists "B"%string, "C"%string. vm_compute. reflexivity.
  - exists "B"%string, "C"%string. vm_compute. reflexivity.
Qed.
Print Assumptions C51_repair_refuted.

Lemma remove_crlf s : no_char CR s = true -> remove_char CR (crlf_of s) = s.
Proof.
  induction s as [|x s IH]; [reflexivity|]. cbn [no_char crlf_of]. rewrite andb_true_iff, negb_true_iff. intros [N H].
  destruct (Ascii.eqb_spec x LF) as [->|NL].
  - assert (A : forall q, q = LF -> remove_char CR (String CR (String q (crlf_of s))) = String q (remove_char CR (crlf_of s))) by (intros q ->; reflexivity).
    rewrite A by reflexivity. now rewrite IH.
  - cbn [remove_char]. rewrite N. now rewrite IH.
Qed.

(** A text without carriage returns that does not start with a newline: every
    newline is preceded by a carriage return afterwards, and nothing else
    changed. *)
Theorem C51_repair_partial s : no_char CR s = true -> starts_with LF s = false ->
  all_crlf LF (repair_text s) = true /\ remove_char CR (repair_text s) = s.
Proof.
  intros N S. assert (A : repair_text s = crlf_of s).
  { destruct (repair_cases s) as [(_ & E & E2)|[(b & -> & _)|(a & c & b & -> & _ & E)]]; [congruence|discriminate S|].
    destruct (Ascii.eqb_spec c CR) as [->|]; [|exact E]. exfalso.
    clear - N. induction a as [|x a IH]; cbn [append no_char] in N; [discriminate N|]. apply andb_true_iff in N as [_ N]. auto. }
  rewrite A. split; [|now apply remove_crlf]. apply crlf_of_all. destruct s as [|x s]; [auto|]. left. exists x, s.
  split; [reflexivity|]. intros ->. discriminate S.
Qed.
Print Assumptions C51_repair_partial.

Example C51_case : no_char CR (T ["A"; nl; nl; "B"; nl])%string = true /\ starts_with LF (T ["A"; nl; nl; "B"; nl])%string = false
  /\ repair_text (T ["A"; nl; nl; "B"; nl])%string = T ["A"; CRLF; CRLF; "B"; CRLF]%string
  /\ all_crlf LF (T ["A"; CRLF; CRLF; "B"])%string = true.
Proof. vm_compute. auto. Qed.

(** * C52: iCalRepresentation describes the rule *)
(** Refuted: rules without frequency and dates before 1900 raise, a count of zero
    is dropped (although such a rule never occurs), and a time in an exception is
    lost. *)
Theorem C52_text_refuted :
  (exists r dt, validate r = Ok tt /\ ical_representation r dt = Raise AssertionError)
  /\ (exists r dt, validate r = Ok tt /\ r_until r = Some (VDate 600000) /\ ical_representation r dt = Raise ValueError)
  /\ (exists r r' dt l, validate r = Ok tt /\ validate r' = Ok tt /\ r_count r = Some 0 /\ r_count r' = None
        /\ ical_representation r dt = Ok l /\ ical_representation r' dt = Ok l
        /\ apply 10 r dt (Some (VDate (dt_date dt))) = ([], GStop) /\ apply 10 r' dt (Some (VDate (dt_date dt))) = ([dt_date dt], GStop))
  /\ (exists r r' dt l, validate r = Ok tt /\ validate r' = Ok tt /\ r_exceptions r <> r_exceptions r'
        /\ ical_representation r dt = Ok l /\ ical_representation r' dt = Ok l
        /\ apply 10 r dt (Some (VDate (dt_date dt))) <> apply 10 r' dt (Some (VDate (dt_date dt)))).
Proof.
  split; [|split; [|split]].
  - exists (mkRule KNo 1 None None [] [] "monthday"), (p_at 732500 9). vm_compute. auto.
  - exists (mkRule KDaily 1 None (Some (VDate 600000)) [] [] "monthday"), (p_at 600000 9). vm_compute. auto.
  - exists (mkRule KDaily 1 (Some 0) None [] [] "monthday"), (mkRule KDaily 1 None None [] [] "monthday"), (p_at 732500 9).
    eexists. do 4 (split; [vm_compute; reflexivity|]). split; [vm_compute; reflexivity|]. split; [vm_compute; reflexivity|].
    split; vm_compute; reflexivity.
  - exists (mkRule KDaily 1 None None [VDate 732500] [] "monthday"), (mkRule KDaily 1 None None [VDatetime (p_at 732500 9)] [] "monthday"), (p_at 732500 9).
    eexists. do 2 (split; [vm_compute; reflexivity|]). split; [discriminate|]. split; [vm_compute; reflexivity|]. split; [vm_compute; reflexivity|].
    vm_compute. discriminate.
Qed.
Print Assumptions C52_text_refuted.

(** Every other valid rule: reading the lines back (with a reader written from
    the standard, SpecText.v) gives frequency, interval, count, until to the
    second, weekdays, the monthly position of [dtstart] and the days of all
    exceptions, in order. *)
Theorem C52_text_partial r dtstart : validate r = Ok tt -> r_kind r <> KBasic -> r_kind r <> KNo -> r_count r <> Some 0 ->
  (forall u, r_until r = Some u -> printable u) -> Forall printable (r_exceptions r) ->
  exists lines p, ical_representation r dtstart = Ok lines /\ read_lines lines = Some p /\ reads_as r dtstart p.
Proof.
  intros V N1 N2. apply representation_reads; [exact V|]. destruct (r_kind r); cbn; congruence.
Qed.
Print Assumptions C52_text_partial.

(** So two such rules with the same lines are the same rule, up to times within
    exceptions, fractions of a second and equal dates and datetimes. *)
Theorem C52_text_injective_partial r1 r2 dtstart lines : dt_ok dtstart = true ->
  validate r1 = Ok tt -> r_kind r1 <> KBasic -> r_kind r1 <> KNo -> r_count r1 <> Some 0 ->
  (forall u, r_until r1 = Some u -> printable u) -> Forall printable (r_exceptions r1) ->
  validate r2 = Ok tt -> r_kind r2 <> KBasic -> r_kind r2 <> KNo -> r_count r2 <> Some 0 ->
  (forall u, r_until r2 = Some u -> printable u) -> Forall printable (r_exceptions r2) ->
  ical_representation r1 dtstart = Ok lines -> ical_representation r2 dtstart = Ok lines ->
  r_kind r1 = r_kind r2 /\ r_interval r1 = r_interval r2 /\ r_count r1 = r_count r2
  /\ option_map (fun u => (day_of_val u, sec_of_val u)) (r_until r1) = option_map (fun u => (day_of_val u, sec_of_val u)) (r_until r2)
  /\ map day_of_val (r_exceptions r1) = map day_of_val (r_exceptions r2)
  /\ (r_kind r1 = KWeekly -> r_weekdays r1 = r_weekdays r2)
  /\ (r_kind r1 = KMonthly -> r_monthly r1 = r_monthly r2).
Proof.
  intros DT V1 A1 B1 C1 D1 E1 V2 A2 B2 C2 D2 E2 L1 L2.
  destruct (C52_text_partial r1 dtstart V1 A1 B1 C1 D1 E1) as (l1 & p1 & X1 & Y1 & Z1).
  destruct (C52_text_partial r2 dtstart V2 A2 B2 C2 D2 E2) as (l2 & p2 & X2 & Y2 & Z2).
  assert (p1 = p2) by congruence. subst p2. clear L1 L2 X1 X2 Y1 Y2.
  destruct Z1 as (F1 & I1 & K1 & U1 & W1 & M1 & _ & S1). destruct Z2 as (F2 & I2 & K2 & U2 & W2 & M2 & _ & S2).
  assert (K : r_kind r1 = r_kind r2).
  { rewrite F1 in F2. destruct (r_kind r1), (r_kind r2); cbn in F2; try congruence; discriminate F2. }
  split; [exact K|]. split; [congruence|]. split; [congruence|]. split.
  { rewrite U1 in U2. destruct (r_until r1), (r_until r2); cbn in *; congruence. }
  split.
  { rewrite S1 in S2. destruct (r_exceptions r1), (r_exceptions r2); try discriminate S2; [reflexivity|]. congruence. }
  split.
  - intros KW. specialize (W1 KW). rewrite K in KW. specialize (W2 KW). destruct (rd_byday p1) as [l|]; [|congruence].
    rewrite W1 in W2. clear - W2. revert W2. generalize (r_weekdays r2). induction (r_weekdays r1) as [|w l IH]; intros [|w' l'] H; try discriminate H; [reflexivity|].
    cbn in H. assert (w = w') by congruence. subst. f_equal. apply IH. congruence.
  - intros KM. specialize (M1 KM). rewrite K in KM. specialize (M2 KM).
    destruct M1 as [(M1 & N1 & _)|(k1 & N1 & _ & M1)], M2 as [(M2 & N2 & _)|(k2 & N2 & _ & M2)]; try congruence.
    assert (k1 = k2) by congruence. subst k2. unfold nth_in_month in *.
    assert (DP := day_range (dt_date dtstart) ltac:(unfold dt_ok, dt_date, DAY in *; lia)).
    destruct M1 as [[M1 P1]|[M1 P1]], M2 as [[M2 P2]|[M2 P2]]; try congruence; exfalso; lia.
Qed.
Print Assumptions C52_text_injective_partial.

(** every second Monday and Wednesday, and the last Saturday of each month *)
Example C52_case :
  let r := mkRule KWeekly 2 None (Some (VDate 732600)) [VDate 732507; VDate 732514] [0; 2] "monthday" in
  validate r = Ok tt /\ r_count r <> Some 0 /\ (forall u, r_until r = Some u -> printable u) /\ Forall printable (r_exceptions r)
  /\ ical_representation r (p_at 732500 9) =
      Ok ["RRULE:FREQ=WEEKLY;UNTIL=20061016T000000;BYDAY=MO,WE;INTERVAL=2"; "EXDATE;VALUE=DATE:20060715,20060722"]%string
  /\ ical_representation (mkRule KMonthly 1 (Some 5) None [] [] "lastweekday") (p_at 732500 9) =
      Ok ["RRULE:FREQ=MONTHLY;COUNT=5;BYDAY=-1SA;INTERVAL=1"]%string.
Proof.
  split; [vm_compute; reflexivity|]. split; [discriminate|]. split.
  { intros u E. injection E as <-. vm_compute. intuition discriminate. }
  split; [|split; vm_compute; reflexivity].
  repeat constructor; vm_compute; intuition discriminate.
Qed.

(** * C54: imported recurrence rules *)
Definition freq_of (k : kind) : option string :=
  match k with KDaily => Some "DAILY" | KWeekly => Some "WEEKLY" | KMonthly => Some "MONTHLY" | KYearly => Some "YEARLY"
  | KBasic | KNo => None end%string.
Definition day_names : list string := ["MO"; "TU"; "WE"; "TH"; "FR"; "SA"; "SU"]%string.
Definition first_or {A} (o : option (list A)) (d : option A) (x : option A) : Prop :=
  match o with None => x = d | Some l => exists y l', l = y :: l' /\ x = Some y end.

(** what the imported rule takes from the RRULE value *)
Definition rule_says (rr : rrule) (r : rule) : Prop :=
  (exists f l, rr_freq rr = Some (f :: l) /\ freq_of (r_kind r) = Some f)
  /\ first_or (rr_interval rr) (Some 1) (Some (r_interval r))
  /\ first_or (rr_count rr) None (r_count r)
  /\ first_or (rr_until rr) None (r_until r)
  /\ r_exceptions r = []
  /\ (r_kind r = KWeekly -> Forall2 (fun name w => 0 <= w /\ nth_error day_names (Z.to_nat w) = Some name)
                                    (match rr_byday rr with Some l => l | None => [] end) (r_weekdays r))
  /\ (r_kind r = KMonthly -> match rr_byday rr with
        | None => r_monthly r = "monthday"%string
        | Some l => exists c name l', l = String c name :: l'
            /\ r_monthly r = (if Ascii.eqb c "-" then "lastweekday" else "weekday")%string
        end).

Lemma weekday_index_name d w : weekday_index d = Ok w -> 0 <= w <= 6 /\ nth_error day_names (Z.to_nat w) = Some d.
Proof.
  unfold weekday_index. repeat (match goal with |- context [String.eqb d ?x] => destruct (String.eqb_spec d x) as [->|] end;
    [intros E; injection E as <-; split; [lia|reflexivity]|]). discriminate.
Qed.

Lemma mk_rule_ok k i c u ex wd m r : mk_rule k i c u ex wd m = Ok r ->
  r = mkRule k i c u ex (match k with KWeekly => wd | _ => [] end) (match k with KMonthly => m | _ => "monthday"%string end).
Proof. unfold mk_rule. cbn zeta. destruct (validate _); cbn; congruence. Qed.

Lemma base_rule_says rr b : base_rule rr = Ok b ->
  (exists f l, rr_freq rr = Some (f :: l) /\ freq_of (r_kind b) = Some f)
  /\ r_interval b = 1 /\ r_count b = None /\ r_until b = None /\ r_exceptions b = []
  /\ (r_kind b = KWeekly -> rmap weekday_index (match rr_byday rr with Some l => l | None => [] end) = Ok (r_weekdays b))
  /\ (r_kind b = KMonthly -> match rr_byday rr with
        | None => r_monthly b = "monthday"%string
        | Some l => exists c name l', l = String c name :: l'
            /\ r_monthly b = (if Ascii.eqb c "-" then "lastweekday" else "weekday")%string
        end).
Proof.
  unfold base_rule. destruct (rr_freq rr) as [[|f l]|]; try discriminate. cbn [head_of rbind]. intros H.
  destruct (String.eqb_spec f "DAILY") as [->|]; [apply mk_rule_ok in H; subst b; cbn; split; [eauto|]; repeat split; discriminate|].
  destruct (String.eqb_spec f "YEARLY") as [->|]; [apply mk_rule_ok in H; subst b; cbn; split; [eauto|]; repeat split; discriminate|].
  destruct (String.eqb_spec f "WEEKLY") as [->|].
  - destruct (match rr_byday rr with None => Ok [] | Some l0 => rmap weekday_index l0 end) as [ds| |] eqn:D; try discriminate.
    cbn [rbind] in H. apply mk_rule_ok in H. subst b. cbn. split; [eauto|]. do 4 (split; [reflexivity|]). split; [|discriminate].
    intros _. destruct (rr_byday rr); exact D.
  - destruct (String.eqb_spec f "MONTHLY") as [->|]; [|discriminate H]. destruct (rr_byday rr) as [[|[|c name] l']|]; try discriminate H;
      cbn [head_of rbind] in H; apply mk_rule_ok in H; subst b; cbn; (split; [eauto|]); do 4 (split; [reflexivity|]);
      (split; [discriminate|]); intros _; eauto.
Qed.

Lemma first_or_head {A} (o : option (list A)) x d : opt_head o = Ok x ->
  first_or o d (match x with Some _ => x | None => d end).
Proof.
  unfold opt_head, first_or. destruct o as [[|y l]|]; cbn; intros H; try discriminate.
  - assert (x = Some y) by congruence. subst. eauto.
  - assert (x = None) by congruence. now subst.
Qed.

Lemma import_rule_parts rr r : import_rule rr = Ok r -> exists b i c u, base_rule rr = Ok b
  /\ opt_head (rr_interval rr) = Ok i /\ opt_head (rr_count rr) = Ok c /\ opt_head (rr_until rr) = Ok u
  /\ r = mkRule (r_kind b) (dflt i (r_interval b)) (match c with Some _ => c | None => r_count b end)
             (match u with Some _ => u | None => r_until b end) (r_exceptions b) (r_weekdays b) (r_monthly b).
Proof.
  unfold import_rule. destruct (base_rule rr) as [b| |]; try discriminate. cbn [rbind].
  destruct (opt_head (rr_interval rr)) as [i| |]; try discriminate. cbn [rbind].
  destruct (opt_head (rr_count rr)) as [c| |]; try discriminate. cbn [rbind].
  destruct (opt_head (rr_until rr)) as [u| |]; try discriminate. cbn [rbind]. intros H.
  exists b, i, c, u. repeat (split; [reflexivity|]). congruence.
Qed.

Lemma import_rule_says rr r : import_rule rr = Ok r -> rule_says rr r.
Proof.
  intros H. destruct (import_rule_parts rr r H) as (b & i & c & u & B & I & C & U & ->).
  destruct (base_rule_says rr b B) as (F & E1 & E2 & E3 & E4 & W & M). unfold rule_says. cbn.
  split; [exact F|]. split.
  { pose proof (first_or_head (rr_interval rr) i (Some 1) I) as X. rewrite E1. destruct i; exact X. }
  split. { rewrite E2. exact (first_or_head _ c None C). }
  split. { rewrite E3. exact (first_or_head _ u None U). }
  split; [exact E4|]. split; [|exact M]. intros K. specialize (W K).
  apply rmap_forall2 in W. clear - W. induction W as [|d w ? ? X _ IH]; constructor; [|exact IH].
  destruct (weekday_index_name d w X). split; [lia|assumption].
Qed.

(** whatever is imported has the RRULE's parts *)
Theorem C54_rule_says rr r : import_rule rr = Ok r -> rule_says rr r.
Proof. exact (import_rule_says rr r). Qed.
Print Assumptions C54_rule_says.

(** and a readable RRULE is imported: first values present, a known frequency,
    weekdays without ordinals for weekly and non-empty ones for monthly rules *)
Definition readable (rr : rrule) : Prop :=
  (exists f l, rr_freq rr = Some (f :: l) /\ In f ["DAILY"; "WEEKLY"; "MONTHLY"; "YEARLY"]%string
     /\ (f = "WEEKLY"%string -> forall d, In d (match rr_byday rr with Some l => l | None => [] end) -> In d day_names)
     /\ (f = "MONTHLY"%string -> forall l, rr_byday rr = Some l -> exists d l', l = d :: l' /\ d <> ""%string))
  /\ rr_interval rr <> Some [] /\ rr_count rr <> Some [] /\ rr_until rr <> Some [].

Lemma opt_head_ok {A} (o : option (list A)) : o <> Some [] -> exists x, opt_head o = Ok x.
Proof. destruct o as [[|x l]|]; [congruence|eexists; reflexivity|eexists; reflexivity]. Qed.

Lemma weekday_index_ok d : In d day_names -> exists w, weekday_index d = Ok w.
Proof. intros H. repeat (destruct H as [<-|H]; [eexists; reflexivity|]). destruct H. Qed.

Lemma rmap_total {A B} (f : A -> res B) l : (forall x, In x l -> exists y, f x = Ok y) -> exists ys, rmap f l = Ok ys.
Proof.
  induction l as [|x l IH]; intros H; [eexists; reflexivity|]. cbn. destruct (H x (or_introl eq_refl)) as (y & ->). cbn.
  destruct IH as (ys & ->); [intros z Hz; apply H; now right|]. eexists. reflexivity.
Qed.

Theorem C54_readable_imports rr : readable rr -> exists r, import_rule rr = Ok r.
Proof.
  intros ((f & l & F & K & W & M) & I & C & U). unfold import_rule.
  destruct (opt_head_ok _ I) as (i & Ei), (opt_head_ok _ C) as (c & Ec), (opt_head_ok _ U) as (u & Eu).
  assert (B : exists b, base_rule rr = Ok b).
  { unfold base_rule. rewrite F. cbn [head_of rbind]. cbn in K. destruct K as [<-|[<-|[<-|[<-|[]]]]]; cbn [String.eqb Ascii.eqb Bool.eqb].
    - eexists. reflexivity.
    - specialize (W eq_refl).
      assert (D : exists ds, match rr_byday rr with None => Ok [] | Some l0 => rmap weekday_index l0 end = Ok ds /\ Forall (fun w => 0 <= w <= 6) ds).
      { destruct (rr_byday rr) as [l0|]; [|exists []; split; [reflexivity|constructor]].
        destruct (rmap_total weekday_index l0 (fun d Hd => weekday_index_ok d (W d Hd))) as (ds & E). exists ds. split; [exact E|].
        apply rmap_forall2 in E. clear - E. induction E as [|d w ? ? X _ IH]; constructor; [|exact IH]. now destruct (weekday_index_name d w X). }
      destruct D as (ds & -> & R). cbn [rbind]. unfold mk_rule.
      assert (V : validate (mkRule KWeekly 1 None None [] ds "monthday") = Ok tt).
      { unfold validate, basic_validate. cbn. replace (forallb (fun d => (0 <=? d) && (d <=? 6)) ds) with true; [reflexivity|].
        symmetry. apply forallb_forall. intros x Hx. rewrite Forall_forall in R. specialize (R x Hx). lia. }
      rewrite V. eexists. reflexivity.
    - specialize (M eq_refl). destruct (rr_byday rr) as [l0|]; [|eexists; reflexivity].
      destruct (M l0 eq_refl) as (d & l' & -> & N). cbn [head_of rbind]. destruct d as [|ch d]; [congruence|]. cbn [rbind].
      destruct (Ascii.eqb ch "-"); eexists; reflexivity.
    - eexists. reflexivity. }
  destruct B as (b & ->). cbn [rbind]. rewrite Ei. cbn [rbind]. rewrite Ec. cbn [rbind]. rewrite Eu. cbn [rbind]. eexists. reflexivity.
Qed.
Print Assumptions C54_readable_imports.

(** valid like a constructed rule when the interval is positive and at most one
    of COUNT and UNTIL is given *)
Theorem C54_valid_partial rr r : import_rule rr = Ok r ->
  (forall i l, rr_interval rr = Some (i :: l) -> 1 <= i) -> (rr_count rr = None \/ rr_until rr = None) ->
  validate r = Ok tt.
Proof.
  intros H. destruct (import_rule_says rr r H) as ((f & l & F & K) & I & C & U & E & W & M). intros HI HCU.
  assert (I1 : 1 <= r_interval r).
  { unfold first_or in I. destruct (rr_interval rr) as [li|]; [|assert (r_interval r = 1) by congruence; lia].
    destruct I as (y & l' & -> & I). assert (r_interval r = y) by congruence. specialize (HI y l' eq_refl). lia. }
  assert (CU : r_count r = None \/ r_until r = None).
  { unfold first_or in C, U. destruct HCU as [X|X]; rewrite X in *; auto. }
  assert (B : basic_validate r = Ok tt).
  { unfold basic_validate. rewrite E. cbn [forallb]. replace (1 <=? r_interval r) with true by lia.
    destruct (r_count r), (r_until r); try reflexivity. destruct CU; discriminate. }
  unfold validate. rewrite B. destruct (r_kind r) eqn:RK; try reflexivity; cbn [rbind].
  - specialize (W eq_refl). replace (forallb (fun d => (0 <=? d) && (d <=? 6)) (r_weekdays r)) with true; [reflexivity|].
    symmetry. clear - W. induction W as [|d w ? ? [X1 X2] _ IH]; [reflexivity|]. cbn [forallb]. rewrite IH, andb_true_r.
    assert ((Z.to_nat w < 7)%nat) by (change 7%nat with (List.length day_names); apply nth_error_Some; congruence). lia.
  - specialize (M eq_refl). destruct (rr_byday rr) as [lb|]; [|rewrite M; reflexivity].
    destruct M as (ch & name & l' & _ & ->). destruct (Ascii.eqb ch "-"); reflexivity.
Qed.
Print Assumptions C54_valid_partial.

(** Refuted: rules the constructor rejects are accepted (COUNT with UNTIL, an
    interval of zero); an unknown frequency raises UnboundLocalError; the ordinal
    of a monthly weekday is dropped; and an UNTIL with a time, which the standard
    requires for events with a time, makes expansion fail. *)
Theorem C54_valid_refuted :
  (exists rr r, import_rule rr = Ok r /\ r_interval r = 0 /\ validate r = Raise ValueError)
  /\ (exists rr r, import_rule rr = Ok r /\ rr_count rr <> None /\ rr_until rr <> None /\ validate r = Raise ValueError)
  /\ (exists rr, rr_freq rr = Some ["HOURLY"%string] /\ import_rule rr = Raise UnboundLocalError)
  /\ (exists rr rr' r, rr_byday rr = Some ["2TU"%string] /\ rr_byday rr' = Some ["3FR"%string] /\ import_rule rr = Ok r /\ import_rule rr' = Ok r)
  /\ (exists rr r u dt e, rr_until rr = Some [VDatetime u] /\ import_rule rr = Ok r /\ dt < u < e /\ forall fuel, apply (S fuel) r dt (Some (VDate (dt_date e))) = ([], GRaise TypeError)).
Proof.
  split; [|split; [|split; [|split]]].
  - exists (mkRR (Some ["DAILY"%string]) (Some [0]) None None None). eexists. split; [vm_compute; reflexivity|]. vm_compute. auto.
  - exists (mkRR (Some ["DAILY"%string]) None (Some [3]) (Some [VDate 732503]) None). eexists. split; [vm_compute; reflexivity|].
    split; [discriminate|]. split; [discriminate|]. vm_compute. reflexivity.
  - exists (mkRR (Some ["HOURLY"%string]) None None None None). vm_compute. auto.
  - exists (mkRR (Some ["MONTHLY"%string]) None None None (Some ["2TU"%string])), (mkRR (Some ["MONTHLY"%string]) None None None (Some ["3FR"%string])).
    eexists. split; [reflexivity|]. split; [reflexivity|]. split; vm_compute; reflexivity.
  - exists (mkRR (Some ["DAILY"%string]) None None (Some [VDatetime (p_at 732503 9)]) None). eexists.
    exists (p_at 732503 9), (p_at 732500 9), (p_at 732510 9). split; [reflexivity|]. split; [vm_compute; reflexivity|].
    split; [vm_compute; auto|]. intros fuel. reflexivity.
Qed.
Print Assumptions C54_valid_refuted.

(** Importing INTERVAL=0 therefore makes a calendar's queries run forever. *)
Definition x_zero : vevent :=
  (mkV (Some "z") (Some (IFloat (p_at 732500 9))) (Some (IFloat (p_at 732500 10))) None (Some "Zero") None None None None [] [] None None None
      (Some (mkRR (Some ["DAILY"]) (Some [0]) None None None)))%string.
Definition x_stuck : system := sst (step cf0 (run cf0 [OAttendee "ann" "Ann" "INDIVIDUAL"; OCalendar; OAddAttendee 0 ann]%string)
  (OImport 0 (Ok (Some [x_zero])) (None, None) None false)).

Lemma zero_loop r (dts ed : Z) : r_interval r = 0 -> r_count r = None -> r_until r = None -> r_exceptions r = [] ->
  dts <= ed -> 1 <= dts <= MAXORD -> forall fuel n, basic_loop fuel (basic_next r) r (Some ed) dts n = (repeat dts fuel, GMore).
Proof.
  intros I C U X L R. induction fuel as [|fuel IH]; intros n; [reflexivity|]. cbn [basic_loop].
  unfold stop_check. rewrite C, U. destruct (ed <? dts) eqn:Q; [lia|]. unfold excepted. rewrite X. cbn [existsb].
  unfold basic_next at 1, date_add. rewrite I, Z.add_0_r. replace ((1 <=? dts) && (dts <=? MAXORD)) with true by lia.
  rewrite IH. reflexivity.
Qed.

Theorem C54_interval_zero_refuted : exists s, reachable cf0 s /\ exists atts, cal_attendees s 0 = Ok atts
  /\ forall fuel, calendar_occurrences fuel (stored s) atts (Some (p_at 732500 0), Some (p_at 732501 0)) None = OutOfFuel.
Proof.
  exists x_stuck. split; [exact (run_reachable cf0 [OAttendee "ann" "Ann" "INDIVIDUAL"; OCalendar; OAddAttendee 0 ann; OImport 0 (Ok (Some [x_zero])) (None, None) None false]%string)|]. eexists. split; [vm_compute; reflexivity|]. intros fuel.
  set (evs := stored x_stuck). vm_compute in evs. subst evs. unfold calendar_occurrences, get_occurrences.
  cbn [assert_bounded rbind]. match goal with |- context [matching_events ?l ?c] => set (m := matching_events l c) end.
  vm_compute in m. subst m. cbn [rbind rconcat_map]. unfold expand. cbn [e_recurrence snd]. unfold apply. cbn [r_kind].
  rewrite zero_loop by (reflexivity || (vm_compute; intuition discriminate)).
  match goal with |- context [expand_dates ?e ?p _] => assert (X : forall n, exists out, expand_dates e p (repeat 732500 n) = Ok out) end.
  { induction n as [|n (out & IH)]; [eexists; reflexivity|]. cbn [repeat]. unfold expand_dates in *. cbn [rconcat_map]. rewrite IH.
    eexists. vm_compute. reflexivity. }
  match goal with |- context [repeat ?x fuel] => change x with 732500 end. destruct (X fuel) as (out & ->). reflexivity.
Qed.
Print Assumptions C54_interval_zero_refuted.

Example C54_case : exists r, let rr := mkRR (Some ["WEEKLY"%string]) (Some [2]) (Some [10]) None (Some ["MO"; "FR"]%string) in
  readable rr /\ import_rule rr = Ok r /\ r_weekdays r = [0; 4] /\ validate r = Ok tt.
Proof.
  eexists. cbn zeta. split; [|split; [vm_compute; reflexivity|vm_compute; auto]]. split.
  - exists "WEEKLY"%string, []. split; [reflexivity|]. split; [cbn; auto|]. split; [|discriminate].
    intros _ d H. cbn in *. destruct H as [<-|[<-|[]]]; auto 10.
  - repeat split; discriminate.
Qed.

(** * C55: the attendee search *)
(** Refuted: searching by name raises as soon as there is an attendee, and the
    two other searches always raise. *)
Theorem C55_search_refuted :
  (forall s q typ, sys_source s <> [] -> find_by_name s q typ = Raise AttributeError)
  /\ (forall s typ, attendees_of_type s typ = Raise AttributeError)
  /\ (forall s, attendee_types s = Raise TypeError)
  /\ (exists s, reachable cf0 s /\ sys_source s <> [] /\ find_by_name s "A" None = Raise AttributeError).
Proof.
  assert (A : forall s q typ, sys_source s <> [] -> find_by_name s q typ = Raise AttributeError).
  { intros s q typ H. unfold find_by_name, find_by_name_with. destruct (sys_source s) as [|[i x] l]; [congruence|]. reflexivity. }
  split; [exact A|]. split; [reflexivity|]. split; [reflexivity|].
  exists (run cf0 office). split; [apply run_reachable|]. split; [vm_compute; discriminate|]. apply A. vm_compute. discriminate.
Qed.
Print Assumptions C55_search_refuted.

(** all that remains: a source without attendees finds none *)
Theorem C55_search_partial s q typ : sys_source s = [] -> find_by_name s q typ = Ok [].
Proof. intros H. unfold find_by_name, find_by_name_with. rewrite H. reflexivity. Qed.
Print Assumptions C55_search_partial.

Example C55_case : reachable cf0 (run cf0 []) /\ sys_source (run cf0 []) = [].
Proof. split; [apply run_reachable|reflexivity]. Qed.
