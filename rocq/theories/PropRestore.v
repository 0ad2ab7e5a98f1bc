(** Property theorems C146: a text that is out of date (cal.py 517-572, 690-746, 974-985). *)
From Verif Require Import Base PyDate DateFacts Recurrent RecurMisc CalTime TimeProofs Event Storage ICal System
  QueryProofs BlockProofs EventProofs SpecProofs SystemProofs StoreProofs IdProofs ImportProofs PropEvent PropSystem
  ICalProofs ImportContent ImportTwice PropICal PropImport PropRepeat PropCalendar PropExact PropRound PropAgain PropSound PropEdit PropSettle.
From Coq Require Import ZifyBool Permutation.
Ltac Zify.zify_post_hook ::= Z.div_mod_to_equations.
Local Opaque ord2ymd year_of month_of day_of ymd2ord days_in_month is_leap.

(** ** the same text, up to the order of the categories (which are a set) *)
Definition same_words (v w : vevent) : Prop :=
  v_uid v = v_uid w /\ v_dtstart v = v_dtstart w /\ v_dtend v = v_dtend w /\ v_duration v = v_duration w
  /\ v_summary v = v_summary w /\ v_description v = v_description w /\ v_location v = v_location w /\ v_status v = v_status w
  /\ v_organizer v = v_organizer w /\ v_attendees v = v_attendees w /\ (forall c, In c (v_categories v) <-> In c (v_categories w))
  /\ v_transp v = v_transp w /\ v_class v = v_class w /\ v_attach v = v_attach w /\ v_rrule v = v_rrule w.

Lemma same_words_refl v : same_words v v.
Proof. unfold same_words. intuition. Qed.

Lemma rule_eq_text a b : rule_eq a b = true -> export_rule a = export_rule b.
Proof.
  intros E. apply rule_eq_tuple in E. unfold tuple_for_comparison in E. unfold export_rule.
  injection E as K I C U _ _. now rewrite K, I, C, U.
Qed.

Lemma text_truthy x : text (truthy x) "" = x.
Proof. now destruct x. Qed.

(** an event that has what an exported text says is exported with this text *)
Lemma says_again tz e v e' d : export_event false e = Ok v -> e_uid e' = e_uid e -> e_duration e' = Some d ->
  says_times tz (wire v) (e_dtstart e') d (e_allday e') -> says_text (wire v) e' ->
  exists v', export_event false e' = Ok v' /\ same_words (wire v') (wire v).
Proof.
  unfold export_event. destruct (e_duration e) as [d0|] eqn:D0; [|discriminate]. cbn [end_of]. unfold dt_add.
  destruct (dt_ok (e_dtstart e + d0)) eqn:OK; [|discriminate]. cbn [rbind]. intros X U D.
  assert (V := f_equal (fun r => match r with Ok v => v | _ => v end) X). cbn in V. clear X. subst v.
  unfold says_times, says_text, wire.
  cbn [v_uid v_dtstart v_dtend v_duration v_organizer v_attendees v_rrule v_summary v_description v_location v_status v_categories v_transp v_class v_attach].
  intros (t0 & T0 & L0 & A & L1). injection T0 as <-.
  assert (CT : forall t x, local_time tz (wire_time (if e_allday e then IDate (dt_date t) else IFloat t)) x -> x = cut e t).
  { intros t x. unfold cut. destruct (e_allday e); cbn; intros ->; cbv zeta; unfold combine, dt_date, to_second, SECOND, DAY; lia. }
  apply CT in L0. apply CT in L1. clear CT.
  assert (AL : e_allday e' = e_allday e) by (rewrite A; now destruct (e_allday e)).
  intros (X1 & X2 & X3 & X4 & X5 & X6 & X7 & X8 & X9).
  rewrite D. cbn [end_of]. unfold dt_add. rewrite L1, (cut_ok e _ OK). cbn [rbind]. eexists. split; [reflexivity|].
  unfold same_words.
  cbn [v_uid v_dtstart v_dtend v_duration v_organizer v_attendees v_rrule v_summary v_description v_location v_status v_categories v_transp v_class v_attach].
  rewrite text_truthy in X2, X3. cbn [text] in X1, X4, X7.
  assert (TT : forall t, wire_time (if e_allday e then IDate (dt_date (cut e t)) else IFloat (cut e t))
                         = wire_time (if e_allday e then IDate (dt_date t) else IFloat t)).
  { intros t. unfold cut. destruct (e_allday e); cbn [wire_time]; f_equal; unfold dt_date, to_second, DAY, SECOND; lia. }
  assert (TP : e_transparent e' = e_transparent e).
  { destruct (e_transparent e); [now apply X6|]. destruct (e_transparent e'); [|reflexivity]. pose proof (proj1 X6 eq_refl) as Q. discriminate Q. }
  rewrite AL, L0, !TT, U, X1, X2, X3, X4, X7, TP, X8.
  do 10 (split; [reflexivity|]). split; [exact X5|]. do 2 (split; [reflexivity|]). split.
  { destruct (e_document e) as [[|? ?]|]; reflexivity. }
  destruct (e_recurrence e) as [r|]; [|now rewrite X9]. cbn in X9. destruct X9 as (r1 & r2 & -> & IR & EQ).
  rewrite (rule_eq_text _ _ EQ). destruct (rule_back _ _ IR) as [_ L]. now rewrite (rule_text_again _ _ L).
Qed.

Lemma exported_uid e v : export_event false e = Ok v -> v_uid (wire v) = Some (e_uid e) /\ v_attendees (wire v) = [] /\ v_organizer (wire v) = None.
Proof. unfold export_event. destruct (end_of _ _); try discriminate. cbn [rbind]. intros X. injection X as <-. auto. Qed.

(** * C146 *)
(** A text that was exported at some time, by this or any other calendar, is
    imported with synchronization: events it names that are shown or gone are then as
    they were when it was exported, whatever has happened to them since; shown
    events it does not name are deleted; events not shown stay as they are.  Answers given since
    are kept, and events that were gone come back without participants. *)
Theorem C146_restored cf0 s0 c0 p0 cr0 evs vs cf s c p cr s' n :
  reachable cf0 s0 -> cal_events s0 c0 p0 cr0 = Ok evs -> export_cal s0 c0 p0 cr0 = Ok vs ->
  reachable cf s -> step cf s (OImport c (Ok (Some (map wire vs))) p cr true) = (s', n, Ok tt) ->
  (forall e v, In e evs -> export_event false e = Ok v -> visible s c p cr (e_uid e) ->
     exists r v', get_event s (e_uid e) = Ok r /\ get_event s' (e_uid e) = Ok r
       /\ export_event false (obj s' r) = Ok v' /\ same_words (wire v') (wire v)
       /\ main_attendee s c = Ok (get_organizer_id (obj s' r))
       /\ forall i, get_status (obj s' r) (Some i)
            = (if opt_str_eqb (get_organizer_id (obj s' r)) (Some i) then Ok (Some "ACCEPTED"%string) else get_status (obj s r) (Some i)))
  /\ (forall e v, In e evs -> export_event false e = Ok v -> has_event s (e_uid e) = false ->
     exists r, get_event s' (e_uid e) = Ok r
       /\ (e_allday e = false \/ v_dtstart v <> v_dtend v -> exists v', export_event false (obj s' r) = Ok v' /\ same_words (wire v') (wire v))
       /\ main_attendee s c = Ok (get_organizer_id (obj s' r))
       /\ forall i, get_status (obj s' r) (Some i)
            = Ok (if opt_str_eqb (get_organizer_id (obj s' r)) (Some i) then Some "ACCEPTED"%string else None))
  /\ (forall u, visible s c p cr u -> ~ In u (map e_uid evs) -> get_event s' u = Raise KeyError /\ In (NDeleted u) n)
  /\ (forall u r, get_event s u = Ok r -> ~ visible s c p cr u -> get_event s' u = Ok r /\ obj s' r = obj s r)
  /\ (forall u, has_event s u = false -> ~ In u (map e_uid evs) -> has_event s' u = false).
Proof.
  intros H0 E EX H ST. pose proof (reachable_store cf0 s0 H0) as I0. pose proof (reachable_store cf s H) as I.
  destruct (exports s0 c0 p0 cr0 evs vs E EX) as [FA U].
  assert (ND : NoDup (import_uids (map wire vs))) by (rewrite U; now apply (cal_events_nodup s0 c0 p0 cr0)).
  destruct (forall2_in _ _ _ FA) as [FA1 _].
  assert (IN : forall e v, In e evs -> export_event false e = Ok v -> In (wire v) (map wire vs)).
  { intros e v He X. destruct (FA1 e He) as (v1 & V1 & X1). assert (v1 = v) by congruence. subst v1. now apply in_map. }
  destruct (C140_others cf s c p cr (map wire vs) true s' n (Ok tt) H ST) as (O1 & O2 & _). rewrite U in O2.
  assert (H' : reachable cf s') by (destruct (again_finds cf s c (map wire vs) p cr true s' n H ND ST) as (H' & _); exact H').
  pose proof (reachable_store cf s' H') as I'.
  split; [|split; [|split; [|split; [exact O1|exact O2]]]].
  - intros e v He X V. destruct (exported_uid e v X) as (U1 & U2 & U3).
    destruct (C61_content cf s c _ p cr true s' n (wire v) (e_uid e) H ND ST (IN e v He X) U1 (or_introl V)) as (r & G & ST1 & ORG).
    destruct (C48_existing cf s c _ p cr true s' n (wire v) (e_uid e) H ND ST (IN e v He X) U1 V) as (r1 & d & G1 & D & TI).
    assert (r1 = r) by congruence. subst r1.
    destruct (C63_existing_status cf s c _ p cr true s' n (wire v) (e_uid e) H ND ST (IN e v He X) U1 V) as (r1 & G0 & G1' & SS).
    assert (r1 = r) by congruence. subst r1.
    assert (UE : e_uid (obj s' r) = e_uid e).
    { destruct I' as [_ I']. unfold get_event in G. destruct (dget (sys_store s') (e_uid e)) as [r2|] eqn:DG; [|discriminate].
      injection G as ->. apply (I' _ _ DG). }
    destruct (says_again (cf_tz cf) e v (obj s' r) d X UE D TI ST1) as (v' & X' & W).
    exists r, v'. do 4 (split; [assumption|]). unfold says_organizer in ORG. rewrite U3 in ORG. split; [exact ORG|].
    intros i. destruct (get_status (obj s r) (Some i)) as [old| |] eqn:GS; [|discriminate GS..].
    rewrite (SS i old GS). unfold said_status. rewrite U2. cbn [last_line]. now destruct (opt_str_eqb _ _).
  - intros e v He X NEW. destruct (exported_uid e v X) as (U1 & U2 & U3).
    destruct (C62_arrives_exact cf0 s0 c0 p0 cr0 evs vs cf s c p cr true s' n H0 H E EX ST e He NEW) as (r & o & G & M & (A & (d & D & T1 & T2) & ORG & P) & WK & _).
    exists r. split; [exact G|]. split; [|split; [unfold get_organizer_id; rewrite ORG; exact M|]].
    + intros K. assert (T : times_left e (obj s' r)).
      { exists d. split; [exact D|]. split; [exact T1|]. rewrite T2. cbv zeta. destruct (e_allday e) eqn:AL; [|reflexivity].
        replace (_ =? 0) with false; [reflexivity|]. symmetry. apply Z.eqb_neq. intros Z0. destruct K as [K|K]; [discriminate|]. apply K.
        unfold export_event in X. rewrite D, AL in X. destruct (end_of _ _) as [t| |] eqn:EO; try discriminate X. cbn [rbind] in X. injection X as <-.
        cbn [v_dtstart v_dtend]. cbn [end_of] in EO. unfold dt_add in EO. destruct (dt_ok _); try discriminate EO. injection EO as <-.
        revert Z0. unfold cut. rewrite AL. cbv zeta. intros Z0. do 2 f_equal. unfold dt_date, DAY in *. lia. }
      destruct (text_again e _ v A T X) as (v' & X' & W). exists v'. split; [exact X'|]. rewrite W. apply same_words_refl.
    + intros i. unfold get_organizer_id. rewrite ORG. apply (P i).
  - intros u (evs1 & e1 & E1 & H1 & U1) NI. rewrite <- U1 in *.
    apply (C140_removed cf s c p cr evs1 (map wire vs) s' n e1 H E1 H1 ST). rewrite U. exact NI.
Qed.
Print Assumptions C146_restored.

(** in the store, but not in the calendar *)
Definition elsewhere (s : system) (c : nat) (u : string) : Prop := has_event s u = true /\ ~ visible s c (None, None) None u.

(** So the whole calendar goes back to the text, except for events that have
    left the calendar but not the store. *)
Theorem C146_whole cf0 s0 c0 p0 cr0 evs vs cf s c main s' n :
  reachable cf0 s0 -> cal_events s0 c0 p0 cr0 = Ok evs -> export_cal s0 c0 p0 cr0 = Ok vs ->
  (forall v, In v vs -> v_dtstart v <> v_dtend v) ->
  reachable cf s -> main_attendee s c = Ok (Some main) ->
  step cf s (OImport c (Ok (Some (map wire vs))) (None, None) None true) = (s', n, Ok tt) ->
  exists vs', export_cal s' c (None, None) None = Ok vs' /\ NoDup (map v_uid vs')
    /\ (forall v', In v' vs' -> exists v, In v vs /\ same_words (wire v') (wire v))
    /\ (forall v u, In v vs -> v_uid v = Some u -> ~ elsewhere s c u -> exists v', In v' vs' /\ same_words (wire v') (wire v)).
Proof.
  intros H0 E EX NZ H M ST. pose proof (reachable_store cf0 s0 H0) as I0. pose proof (reachable_store cf s H) as I.
  destruct (C146_restored cf0 s0 c0 p0 cr0 evs vs cf s c (None, None) None s' n H0 E EX H ST) as (R1 & R2 & R3 & R4 & R5).
  destruct (exports s0 c0 p0 cr0 evs vs E EX) as [FA U].
  assert (ND : NoDup (import_uids (map wire vs))) by (rewrite U; now apply (cal_events_nodup s0 c0 p0 cr0)).
  destruct (again_finds cf s c (map wire vs) (None, None) None true s' n H ND ST) as (H' & ES & EC & _ & ONLY).
  pose proof (reachable_store cf s' H') as I'.
  destruct (forall2_in _ _ _ FA) as [FA1 FA2].
  assert (A : cal_attendees s' c = cal_attendees s c) by (unfold cal_attendees, cal, source_get; now rewrite ES, EC).
  assert (ANS : exists atts evs1, cal_attendees s c = Ok atts /\ cal_events s c (None, None) None = Ok evs1).
  { cbn [step] in ST. unfold import_cal in ST. destruct (cal_events s c (None, None) None) as [evs1| |] eqn:E1; [|discriminate ST..].
    unfold cal_events in E1. destruct (cal_attendees s c) as [atts| |]; [|discriminate E1..]. eauto. }
  destruct ANS as (atts & evs1 & EA & E1).
  assert (MM : In (Some main) atts).
  { unfold main_attendee in M. unfold cal_attendees in EA. destruct (dkeys (cal s c)) as [|i ks]; [discriminate M|].
    cbn [rmap] in EA. rewrite M in EA. cbn [rbind] in EA. destruct (rmap (source_get s) ks); try discriminate EA. cbn [rbind] in EA.
    injection EA as <-. now left. }
  (* the events shown afterwards: stored, and one of the calendar's people attends *)
  assert (CK : crit_ok (restrict_attendees None atts)) by (apply restrict_names; [discriminate|exact (cal_attendees_real s c atts EA)]).
  assert (SHOWN : exists evs', cal_events s' c (None, None) None = Ok evs' /\ forall e, In e evs' <-> In e (stored s') /\ satisfies (restrict_attendees None atts) e).
  { unfold cal_events. rewrite A, EA. cbn [rbind]. unfold calendar_events, get_events, matching_events.
    destruct (rfilter_ok (match_criteria (restrict_attendees None atts)) (stored s')) as [m' MA']; [intros x _; now apply match_total|].
    rewrite MA'. cbn [rbind]. destruct (rfilter_ok (fun e => in_period (e_dtstart e) (e_duration e) (None, None)) m') as [m2 MA2]; [intros x _; eexists; reflexivity|].
    rewrite MA2. exists m2. split; [reflexivity|]. intros e. rewrite (rfilter_in _ _ _ MA2 e), (rfilter_in _ _ _ MA' e). split.
    - intros [[X1 X2] _]. split; [exact X1|]. now apply (match_spec _ _ _ X2).
    - intros [X1 X2]. split; [|reflexivity]. split; [exact X1|]. destruct (match_total (restrict_attendees None atts) e CK) as [b B].
      rewrite B. f_equal. now apply (match_spec _ _ _ B). }
  destruct SHOWN as (evs' & E' & SH).
  (* every event of the text that is not elsewhere is shown, with its text *)
  assert (BACK : forall e v, In e evs -> export_event false e = Ok v -> ~ elsewhere s c (e_uid e) ->
     exists r v', get_event s' (e_uid e) = Ok r /\ export_event false (obj s' r) = Ok v' /\ same_words (wire v') (wire v) /\ In (obj s' r) evs').
  { intros e v He X NE.
    assert (K : exists r v', get_event s' (e_uid e) = Ok r /\ export_event false (obj s' r) = Ok v' /\ same_words (wire v') (wire v)
       /\ get_status (obj s' r) (Some main) = Ok (Some "ACCEPTED"%string)).
    { destruct (has_event s (e_uid e)) eqn:HE.
      - assert (V : visible s c (None, None) None (e_uid e)).
        { destruct (in_dec string_dec (e_uid e) (map e_uid evs1)) as [IN|NI].
          - apply in_map_iff in IN as (e1 & Q1 & Q2). exists evs1, e1. auto.
          - exfalso. apply NE. split; [exact HE|]. intros (evs2 & e2 & Q1 & Q2 & Q3). apply NI. assert (evs2 = evs1) by congruence. subst evs2.
            apply in_map_iff. eauto. }
        destruct (R1 e v He X V) as (r & v' & _ & G' & X' & W & MA & P). exists r, v'. do 3 (split; [assumption|]).
        rewrite P. rewrite M in MA. injection MA as <-. cbn [opt_str_eqb opt_eqb]. now rewrite String.eqb_refl.
      - destruct (R2 e v He X HE) as (r & G' & W & MA & P). destruct W as (v' & X' & W).
        { right. destruct (FA1 e He) as (v1 & V1 & X1). assert (v1 = v) by congruence. subst v1. now apply NZ. }
        exists r, v'. do 3 (split; [assumption|]). rewrite P. rewrite M in MA. injection MA as <-. cbn [opt_str_eqb opt_eqb]. now rewrite String.eqb_refl. }
    destruct K as (r & v' & G' & X' & W & AC). exists r, v'. do 3 (split; [assumption|]). apply SH.
    assert (DG : dget (sys_store s') (e_uid e) = Some r).
    { unfold get_event in G'. destruct (dget (sys_store s') (e_uid e)); [congruence|discriminate]. }
    split; [unfold stored; apply in_map_iff; exists (e_uid e, r); split; [reflexivity|now apply dget_in]|].
    split; [discriminate|]. split; [discriminate|]. intros l L. injection L as <-. exists main, "ACCEPTED"%string. split; [exact MM|].
    split; [|split; [discriminate|discriminate]]. unfold get_status in AC. cbn in AC. injection AC as AC. exact AC. }
  (* and nothing else is *)
  assert (FROM : forall e', In e' evs' -> exists e, In e evs /\ e_uid e = e_uid e' /\ ~ elsewhere s c (e_uid e)).
  { intros e' He'. assert (V : visible s' c (None, None) None (e_uid e')) by (exists evs', e'; auto).
    pose proof (ONLY (e_uid e') eq_refl V) as IU. rewrite U in IU. apply in_map_iff in IU as (e & UE & He). exists e. split; [exact He|]. split; [exact UE|].
    rewrite UE. intros [HE NV]. destruct (get_event s (e_uid e')) as [r| |] eqn:G; [|unfold has_event in HE; rewrite G in HE; discriminate HE..].
    destruct (R4 _ r G NV) as [G' OB]. apply NV. unfold get_event in G, G'.
    destruct (dget (sys_store s) (e_uid e')) as [r1|] eqn:D1; [|discriminate]. destruct (dget (sys_store s') (e_uid e')) as [r2|] eqn:D2; [|discriminate].
    injection G as ->. injection G' as ->. exact (visible_same s s' c (None, None) None evs1 (e_uid e') r I I' ES EC E1 D1 D2 OB V). }
  assert (EACH : forall e', In e' evs' -> exists e v v', In e evs /\ In v vs /\ export_event false e' = Ok v' /\ same_words (wire v') (wire v)).
  { intros e' He'. destruct (FROM e' He') as (e & He & UE & NE). destruct (FA1 e He) as (v & Hv & X).
    destruct (BACK e v He X NE) as (r & v' & G & X' & W & _). exists e, v, v'. do 2 (split; [assumption|]).
    destruct (cal_events_known s' c (None, None) None evs' e' I' E' He') as (r' & D & ->). rewrite UE in G. unfold get_event in G. rewrite D in G.
    injection G as ->. auto. }
  assert (EXP : exists vs', export_cal s' c (None, None) None = Ok vs').
  { unfold export_cal. rewrite E'. cbn [rbind]. apply rmap_total. intros e' He'. destruct (EACH e' He') as (_ & _ & v' & _ & _ & X & _). eauto. }
  destruct EXP as [vs' EX']. exists vs'. split; [exact EX'|]. destruct (exports s' c _ _ evs' vs' E' EX') as [FA' U'].
  destruct (forall2_in _ _ _ FA') as [FA1' FA2']. split; [|split].
  - assert (Q : map v_uid vs' = map (fun e => Some (e_uid e)) evs').
    { clear - FA'. induction FA' as [|e v es ws X _ IH]; [reflexivity|]. cbn [map]. f_equal; [|exact IH]. now destruct (exported_uid e v X). }
    rewrite Q. rewrite <- (map_map e_uid (@Some string)). apply FinFun.Injective_map_NoDup; [intros x y Z; congruence|].
    now apply (cal_events_nodup s' c (None, None) None).
  - intros v' Hv'. destruct (FA2' v' Hv') as (e' & He' & X'). destruct (EACH e' He') as (_ & v & v2 & _ & Hv & X2 & W).
    assert (v2 = v') by congruence. subst v2. eauto.
  - intros v u Hv V NE. destruct (FA2 v Hv) as (e & He & X). destruct (exported_uid e v X) as [UE _]. cbn [wire v_uid] in UE. rewrite V in UE. injection UE as ->.
    destruct (BACK e v He X NE) as (r & v' & _ & X' & W & IN). destruct (FA1' _ IN) as (v2 & Hv2 & X2). assert (v2 = v') by congruence. subst v2. eauto.
Qed.
Print Assumptions C146_whole.

(** the diary of [x_mixed], later: one event deleted, one moved, one that Ann no
    longer attends, one new *)
Definition x_later : system := run cf0
  [OAttendee "ann" "Ann" "INDIVIDUAL"; OCalendar; OAddAttendee 0 ann;
   OCreate (Some "a") (p_spec (p_at 732501 9) (Some HOUR) false ann []) 0;
   OCreate (Some "b") (r_spec (p_at 732501 9) HOUR ann (Some (mkRule KDaily 2 (Some 5) None [VDate 732503] [] "monthday"))) 0;
   OCreate (Some "c") (p_spec (p_at 732501 9 + 250000) (Some HOUR) false ann []) 0;
   OCreate (Some "d") (p_spec (p_at 732501 0) (Some DAY) true ann []) 0;
   OAssign 3 (p_spec (p_at 732501 12) (Some DAY) true ann []);
   ODelete 0; OAssign 1 (p_spec (p_at 732600 15) (Some DAY) false ann []); OSetStatus 3 ann None;
   OCreate (Some "x") (p_spec (p_at 732700 9) (Some HOUR) false ann []) 0]%string.

Example C146_case : exists evs vs s' vs', cal_events x_mixed 0 (None, None) None = Ok evs
  /\ reachable cf0 x_mixed /\ export_cal x_mixed 0 (None, None) None = Ok vs /\ (forall v, In v vs -> v_dtstart v <> v_dtend v)
  /\ reachable cf0 x_later /\ main_attendee x_later 0 = Ok ann
  /\ step cf0 x_later (OImport 0 (Ok (Some (map wire vs))) (None, None) None true)
     = (s', [NCreated "a"; NModified "b"; NModified "c"; NDeleted "x"], Ok tt)%string
  /\ export_cal s' 0 (None, None) None = Ok vs' /\ map v_uid vs = map Some ["a"; "b"; "c"; "d"]%string
  /\ map v_uid vs' = map Some ["b"; "c"; "a"]%string /\ elsewhere x_later 0 "d"
  /\ (forall v', In v' vs' -> In (wire v') (map wire vs))
  /\ forallb (fun e => negb (has_event x_later (e_uid e))) (firstn 1 evs) = true.
Proof.
  do 4 eexists. split; [vm_compute; reflexivity|]. split; [apply run_reachable|]. split; [vm_compute; reflexivity|].
  split; [intros v [<-|[<-|[<-|[<-|[]]]]]; vm_compute; discriminate|]. split; [apply run_reachable|]. do 5 (split; [vm_compute; reflexivity|]).
  split; [|split; [|vm_compute; reflexivity]].
  - split; [vm_compute; reflexivity|]. intros (es & e & E & I & U).
    assert (Q : rbind (cal_events x_later 0 (None, None) None) (fun l => Ok (map e_uid l)) = Ok ["b"; "c"; "x"]%string) by (vm_compute; reflexivity).
    rewrite E in Q. cbn [rbind] in Q. injection Q as Q. apply (in_map e_uid) in I. rewrite U, Q in I. destruct I as [I|[I|[I|[]]]]; discriminate I.
  - intros v' [<-|[<-|[<-|[]]]]; vm_compute; auto 6.
Qed.
