(** Property theorems C144: exporting a calendar and importing the text settles
    after the first time (cal.py 517-572, 700-746, 966-983). *)
From Verif Require Import Base PyDate DateFacts Recurrent RecurMisc CalTime TimeProofs Event Storage ICal System
  QueryProofs BlockProofs EventProofs SpecProofs SystemProofs StoreProofs IdProofs ImportProofs PropEvent PropSystem
  ICalProofs ImportContent ImportTwice PropICal PropImport PropRepeat PropCalendar PropExact PropRound PropAgain PropSound PropEdit.
From Coq Require Import ZifyBool Permutation.
Ltac Zify.zify_post_hook ::= Z.div_mod_to_equations.
Local Opaque ord2ymd year_of month_of day_of ymd2ord days_in_month is_leap.

(** ** what is left of an event has the text the event had *)
Lemma rule_text_again r r' : rule_left r r' -> wire_rule (export_rule r') = wire_rule (export_rule r).
Proof.
  intros (K & I & C & U & _). unfold wire_rule, export_rule. cbn [rr_freq rr_interval rr_count rr_until rr_byday].
  rewrite K, I, C, U. f_equal. destruct (r_until r) as [[x|t|]|]; try reflexivity. cbn. unfold to_second, SECOND.
  do 3 f_equal. lia.
Qed.

Lemma cut_ok e t : dt_ok t = true -> dt_ok (cut e t) = true.
Proof. unfold dt_ok, cut, DAY. destruct (e_allday e); lia. Qed.

(** [e'] starts and ends where the text says *)
Definition times_left (e e' : event) : Prop := exists d, e_duration e = Some d
  /\ e_dtstart e' = cut e (e_dtstart e) /\ e_duration e' = Some (cut e (e_dtstart e + d) - cut e (e_dtstart e)).

Lemma text_again e e' v : attrs_left e e' -> times_left e e' -> export_event false e = Ok v ->
  exists v', export_event false e' = Ok v' /\ wire v' = wire v.
Proof.
  intros (A0 & A1 & A2 & A3 & A4 & A5 & A6 & A7 & A8 & A9 & A10) (d & D & T1 & T2).
  unfold export_event. rewrite D, T1, T2. cbn [end_of]. unfold dt_add.
  destruct (dt_ok (e_dtstart e + d)) eqn:OK; try discriminate. cbn [rbind]. intros X. injection X as <-.
  replace (cut e (e_dtstart e) + (cut e (e_dtstart e + d) - cut e (e_dtstart e))) with (cut e (e_dtstart e + d)) by lia.
  rewrite (cut_ok e _ OK). cbn [rbind]. eexists. split; [reflexivity|].
  unfold wire. cbn [v_uid v_dtstart v_dtend v_duration v_summary v_description v_location v_status v_organizer v_attendees
    v_categories v_transp v_class v_attach v_rrule].
  rewrite A0, A1, A2, A3, A4, A5, A6, A7, A8, A9.
  assert (TT : forall t, wire_time (if e_allday e then IDate (dt_date (cut e t)) else IFloat (cut e t))
                         = wire_time (if e_allday e then IDate (dt_date t) else IFloat t)).
  { intros t. unfold cut. destruct (e_allday e); cbn [wire_time]; f_equal; unfold dt_date, to_second, DAY, SECOND; lia. }
  rewrite !TT.
  assert (DD : match match e_document e with Some EmptyString => None | x => x end with Some d0 => truthy d0 | None => None end
             = match e_document e with Some d0 => truthy d0 | None => None end).
  { destruct (e_document e) as [[|? ?]|]; reflexivity. }
  rewrite DD. f_equal.
  destruct (e_recurrence e) as [r|]; [|now rewrite A10]. destruct A10 as (r' & -> & L). now rewrite (rule_text_again r r' L).
Qed.

(** what is left loses nothing more *)
Lemma left_lossless e e' : attrs_left e e' -> times_left e e' -> workable e -> lossless e'.
Proof.
  intros (A0 & A1 & A2 & A3 & A4 & A5 & A6 & A7 & A8 & A9 & A10) (d & D & T1 & T2) [(d' & D' & OK) WK].
  assert (d' = d) by congruence. subst d'. split; [|split].
  - exists (cut e (e_dtstart e + d) - cut e (e_dtstart e)). split; [exact T2|]. rewrite T1, A5.
    replace (cut e (e_dtstart e) + (cut e (e_dtstart e + d) - cut e (e_dtstart e))) with (cut e (e_dtstart e + d)) by lia.
    split; [now apply cut_ok|]. unfold cut, SECOND, DAY. destruct (e_allday e); lia.
  - intros r' R'. destruct (e_recurrence e) as [r|]; [|congruence]. destruct A10 as (r2 & R2 & L). assert (r2 = r') by congruence. subst r2.
    destruct (WK r eq_refl) as [W1 W2]. destruct L as (K & I & C & U & X & W & M). unfold rule_exportable. rewrite X, W, M, K, U.
    split; [reflexivity|]. split; [destruct (r_kind r); try congruence; auto|].
    destruct (r_until r) as [[u|t|]|]; auto. unfold SECOND. lia.
  - rewrite A9. destruct (e_document e) as [[|? ?]|]; discriminate.
Qed.

Lemma in_period_answers t d p : dt_ok (t + d) = true -> exists b, in_period t (Some d) p = Ok b.
Proof.
  intros OK. unfold in_period. cbn [end_of]. unfold dt_add. rewrite OK. destruct p as [[a|] [b|]]; cbn [rbind]; eauto.
  all: repeat match goal with |- context [if ?x then _ else _] => destruct x end; eauto.
Qed.

Lemma restrict_names cr atts : (forall x, cr = Some x -> crit_ok x) -> ~ In None atts -> crit_ok (restrict_attendees cr atts).
Proof.
  intros C A. destruct cr as [x|]; [|split; [discriminate|intros l E; injection E as <-; exact A]].
  destruct (C x eq_refl) as [C1 C2]. unfold restrict_attendees, clone. split; cbn [c_organizer c_attendees].
  - destruct (c_organizer x) as [o|]; cbn; [intros E; now apply C1|discriminate].
  - intros l E. destruct (c_attendees x) as [[|a l0]|] eqn:EA; cbn in E; injection E as <-; try exact A. now apply C2.
Qed.

(** the state after the first time: every event the calendar then shows was shown before,
    and is as it was or what was left of it *)
Lemma after_first cf s c p cr sync main evs vs s' n : reachable cf s -> (forall x, cr = Some x -> crit_ok x) ->
  main_attendee s c = Ok (Some main) -> cal_events s c p cr = Ok evs -> export_cal s c p cr = Ok vs ->
  step cf s (OImport c (Ok (Some (map wire vs))) p cr sync) = (s', n, Ok tt) ->
  reachable cf s' /\ main_attendee s' c = Ok (Some main) /\ cal_attendees s' c = cal_attendees s c
  /\ (forall e, In e evs -> exists r, e = obj s r /\ get_event s' (e_uid e) = Ok r /\ In (obj s' r) (stored s') /\ e_uid (obj s' r) = e_uid e
       /\ ((obj s' r = e /\ exportable main e) \/ came_back (Some main) e (obj s' r)))
  /\ exists evs', cal_events s' c p cr = Ok evs'
     /\ forall e', In e' evs' -> exists e r, In e evs /\ e_uid e = e_uid e' /\ get_event s' (e_uid e) = Ok r /\ e' = obj s' r.
Proof.
  intros H CO M E EX ST. pose proof (reachable_store cf s H) as I. destruct (exports s c p cr evs vs E EX) as [FA U].
  assert (ND : NoDup (import_uids (map wire vs))) by (rewrite U; now apply (cal_events_nodup s c p cr)).
  destruct (again_finds cf s c (map wire vs) p cr sync s' n H ND ST) as (H' & ES & EC & _).
  pose proof (reachable_store cf s' H') as I'.
  destruct (same_source s s' c ES EC) as [_ MM].
  assert (A : cal_attendees s' c = cal_attendees s c) by (unfold cal_attendees, cal, source_get; now rewrite ES, EC).
  assert (WK : Forall workable evs).
  { apply (C47_works_iff cf s c p cr sync evs H E). exists vs. rewrite ST. auto. }
  destruct (C47_reimport_exact cf s c p cr sync evs vs s' n H E EX ST) as (ch & _ & _ & _ & C4).
  destruct (C140_others cf s c p cr (map wire vs) sync s' n (Ok tt) H ST) as (O1 & O2 & _).
  assert (EACH : forall e, In e evs -> exists r, e = obj s r /\ get_event s' (e_uid e) = Ok r /\ In (obj s' r) (stored s') /\ e_uid (obj s' r) = e_uid e
       /\ ((obj s' r = e /\ exportable main e) \/ came_back (Some main) e (obj s' r))).
  { intros e He. destruct (C4 e He) as (r & o & G & OB & G' & M' & CB & CN). exists r. split; [exact OB|]. split; [exact G'|].
    assert (DG : dget (sys_store s') (e_uid e) = Some r).
    { unfold get_event in G'. destruct (dget (sys_store s') (e_uid e)); [congruence|discriminate]. }
    split; [unfold stored; apply in_map_iff; exists (e_uid e, r); split; [reflexivity|now apply dget_in]|].
    split; [destruct I' as [_ I']; apply (I' _ _ DG)|]. assert (o = Some main) by congruence. subst o.
    destruct (in_dec string_dec (e_uid e) ch) as [IN|NI]; [right; now apply CB|left].
    destruct (CN NI) as (X & m & Y & Z). injection Y as <-. auto. }
  split; [exact H'|]. split; [congruence|]. split; [exact A|]. split; [exact EACH|].
  (* every stored event is one of them or untouched *)
  assert (ALL : forall u r, dget (sys_store s') u = Some r ->
     (exists e, In e evs /\ e_uid e = u) \/ (dget (sys_store s) u = Some r /\ obj s' r = obj s r /\ ~ visible s c p cr u)).
  { intros u r D. destruct (in_dec string_dec u (map e_uid evs)) as [IN|NI].
    { left. apply in_map_iff in IN as (e & <- & He). eauto. }
    right. assert (NV : ~ visible s c p cr u).
    { intros (evs1 & e1 & E1 & X1 & U1). assert (evs1 = evs) by congruence. subst evs1. apply NI. apply in_map_iff. eauto. }
    destruct (dget (sys_store s) u) as [r0|] eqn:D0.
    - destruct (O1 u r0) as [X Y]; [unfold get_event; now rewrite D0|exact NV|]. unfold get_event in X. rewrite D in X.
      assert (r0 = r) by congruence. subst r0. auto.
    - exfalso. assert (HS : has_event s' u = false).
      { apply O2; [unfold has_event, get_event; now rewrite D0|]. rewrite U. exact NI. }
      unfold has_event, get_event in HS. rewrite D in HS. discriminate. }
  assert (ANS : exists evs', cal_events s' c p cr = Ok evs').
  { unfold cal_events in *. rewrite A. destruct (cal_attendees s c) as [atts| |] eqn:EA; try discriminate. cbn [rbind] in *.
    unfold calendar_events, get_events in *.
    destruct (matching_events (stored s) _) as [m| |] eqn:MA; try discriminate. cbn [rbind] in E. unfold matching_events in *.
    pose proof (restrict_names cr atts CO (cal_attendees_real s c atts EA)) as CK.
    destruct (rfilter_ok (match_criteria (restrict_attendees cr atts)) (stored s')) as [m' MA']; [intros x _; now apply match_total|].
    rewrite MA'. cbn [rbind]. apply rfilter_ok. intros e' He'. apply (rfilter_in _ _ _ MA') in He' as [St Me].
    unfold stored in St. apply in_map_iff in St as ([u r] & <- & St). cbn [snd] in *. apply in_dget in St; [|apply I'].
    destruct (ALL u r St) as [(e & He & Ue)|(D & OB & _)].
    - destruct (EACH e He) as (r' & _ & G' & _ & _ & K). rewrite Ue in G'. unfold get_event in G'. rewrite St in G'. injection G' as <-.
      pose proof (proj1 (Forall_forall _ _) WK e He) as [(d & D & OK) _].
      destruct K as [[-> _]|(_ & (d' & D' & T1 & T2) & _)].
      + rewrite D. now apply in_period_answers.
      + assert (d' = d) by congruence. subst d'. rewrite T1, T2. apply in_period_answers.
        replace (cut e (e_dtstart e) + (cut e (e_dtstart e + d) - cut e (e_dtstart e))) with (cut e (e_dtstart e + d)) by lia.
        now apply cut_ok.
    - rewrite OB in *. apply (rfilter_all _ _ _ E). apply (rfilter_in _ _ _ MA). split; [|exact Me].
      unfold stored. apply in_map_iff. exists (u, r). split; [reflexivity|now apply dget_in]. }
  destruct ANS as [evs' E']. exists evs'. split; [exact E'|]. intros e' He'.
  destruct (cal_events_known s' c p cr evs' e' I' E' He') as (r & D & OB).
  destruct (ALL (e_uid e') r D) as [(e & He & Ue)|(D0 & OB0 & NV)].
  - exists e, r. split; [exact He|]. split; [exact Ue|]. split; [unfold get_event; now rewrite Ue, D|exact OB].
  - exfalso. apply NV. apply (visible_same s s' c p cr evs (e_uid e') r I I' ES EC E D0 D OB0). exists evs', e'. auto.
Qed.

(** * C144 *)
(** Whatever the calendar holds, after its export has been imported once, doing
    it again changes nothing at all and announces nothing, synchronizing or not.
    What it then exports was in the first text, word for word. *)
Theorem C144_settled cf s c p cr sync main vs s' n : reachable cf s -> (forall x, cr = Some x -> crit_ok x) ->
  main_attendee s c = Ok (Some main) -> export_cal s c p cr = Ok vs ->
  step cf s (OImport c (Ok (Some (map wire vs))) p cr sync) = (s', n, Ok tt) ->
  exists vs', export_cal s' c p cr = Ok vs' /\ incl (map wire vs') (map wire vs)
    /\ forall sync', step cf s' (OImport c (Ok (Some (map wire vs'))) p cr sync') = (s', [], Ok tt).
Proof.
  intros H CO M EX ST.
  destruct (cal_events s c p cr) as [evs| |] eqn:E; [|unfold export_cal in EX; rewrite E in EX; discriminate EX..].
  destruct (after_first cf s c p cr sync main evs vs s' n H CO M E EX ST) as (H' & M' & _ & EACH & evs' & E' & SUB).
  assert (WK : Forall workable evs).
  { apply (C47_works_iff cf s c p cr sync evs H E). exists vs. rewrite ST. auto. }
  assert (F : Forall (exportable main) evs').
  { apply Forall_forall. intros e' He'. destruct (SUB e' He') as (e & r & He & Ue & G & ->).
    destruct (EACH e He) as (r' & _ & G' & _ & _ & K). assert (r' = r) by congruence. subst r'.
    destruct K as [[-> X]|(A & T & O & P)]; [exact X|]. apply exportable_lossless.
    pose proof (proj1 (Forall_forall _ _) WK e He) as W. split; [exact (left_lossless e _ A T W)|]. split; [exact O|].
    destruct (P main) as [P1 _]. exact (P1 eq_refl). }
  destruct (C47_roundtrip_partial cf s' c p cr main evs' H' M' E' F) as (vs' & EX' & ST').
  exists vs'. split; [exact EX'|]. split; [|exact ST'].
  destruct (exports s c p cr evs vs E EX) as [FA _]. destruct (exports s' c p cr evs' vs' E' EX') as [FA' _].
  destruct (forall2_in _ _ _ FA) as [FA1 _]. destruct (forall2_in _ _ _ FA') as [_ FA2].
  intros w Hw. apply in_map_iff in Hw as (v' & <- & Hv'). destruct (FA2 v' Hv') as (e' & He' & X').
  destruct (SUB e' He') as (e & r & He & Ue & G & ->). destruct (FA1 e He) as (v & Hv & X).
  destruct (EACH e He) as (r' & _ & G' & _ & _ & K). assert (r' = r) by congruence. subst r'.
  apply in_map_iff. exists v. split; [|exact Hv].
  destruct K as [[K _]|(A & T & _)]; [rewrite K in X'; congruence|].
  destruct (text_again e _ v A T X) as (v2 & X2 & W). assert (v2 = v') by congruence. subst v2. auto.
Qed.
Print Assumptions C144_settled.

(** Of the whole calendar, everything that was in the first text is in the second. *)
Theorem C144_whole cf s c sync main vs s' n : reachable cf s ->
  main_attendee s c = Ok (Some main) -> export_cal s c (None, None) None = Ok vs ->
  step cf s (OImport c (Ok (Some (map wire vs))) (None, None) None sync) = (s', n, Ok tt) ->
  exists vs', export_cal s' c (None, None) None = Ok vs' /\ Permutation (map wire vs') (map wire vs).
Proof.
  intros H M EX ST.
  destruct (C144_settled cf s c (None, None) None sync main vs s' n H ltac:(discriminate) M EX ST) as (vs' & EX' & INC & _).
  exists vs'. split; [exact EX'|].
  destruct (cal_events s c (None, None) None) as [evs| |] eqn:E; [|unfold export_cal in EX; rewrite E in EX; discriminate EX..].
  destruct (after_first cf s c (None, None) None sync main evs vs s' n H ltac:(discriminate) M E EX ST) as (H' & M' & A & EACH & evs' & E' & _).
  destruct (exports s c _ _ evs vs E EX) as [FA U]. destruct (exports s' c _ _ evs' vs' E' EX') as [FA' U'].
  assert (NDW : forall ws, NoDup (import_uids ws) -> (forall w, In w ws -> v_uid w <> None) -> NoDup ws).
  { induction ws as [|w ws IH]; intros N K; [constructor|]. unfold import_uids in N. cbn [flat_map] in N.
    destruct (v_uid w) as [u|] eqn:V; [|exfalso; exact (K w (or_introl eq_refl) V)]. cbn [app] in N. inversion N as [|x y NI N']. subst x y. constructor.
    - intros X. apply NI. apply in_flat_map. exists w. split; [exact X|rewrite V; now left].
    - apply IH; [exact N'|]. intros w' X. apply K. now right. }
  assert (IDS : forall es ws, Forall2 (fun e v => export_event false e = Ok v) es ws -> forall w, In w (map wire ws) -> v_uid w <> None).
  { intros es ws F w Hw. apply in_map_iff in Hw as (v & <- & Hv). destruct (forall2_in _ _ _ F) as [_ F2]. destruct (F2 v Hv) as (e & _ & X).
    unfold export_event in X. destruct (end_of _ _); try discriminate. cbn [rbind] in X. injection X as <-. discriminate. }
  apply NoDup_Permutation.
  - apply NDW; [rewrite U'; apply (cal_events_nodup s' c (None, None) None); [now apply (reachable_store cf)|exact E']|exact (IDS _ _ FA')].
  - apply NDW; [rewrite U; apply (cal_events_nodup s c (None, None) None); [now apply (reachable_store cf)|exact E]|exact (IDS _ _ FA)].
  - intros w. split; [apply INC|]. intros Hw. apply in_map_iff in Hw as (v & <- & Hv).
    destruct (forall2_in _ _ _ FA) as [_ FA2]. destruct (FA2 v Hv) as (e & He & X).
    destruct (EACH e He) as (r & OB & G & STO & UE & K).
    assert (IN : In (obj s' r) evs').
    { unfold cal_events in E, E'. rewrite A in E'. destruct (cal_attendees s c) as [atts| |] eqn:EA; try discriminate. cbn [rbind] in *.
      unfold calendar_events, get_events in E, E'. unfold matching_events in E, E'.
      destruct (rfilter _ (stored s)) as [m| |] eqn:MA; try discriminate. destruct (rfilter _ (stored s')) as [m'| |] eqn:MA'; try discriminate.
      cbn [rbind] in *. apply (rfilter_in _ _ _ E') . split; [|reflexivity]. apply (rfilter_in _ _ _ MA'). split; [exact STO|].
      apply (rfilter_in _ _ _ E) in He as [He _]. apply (rfilter_in _ _ _ MA) in He as [_ Me].
      destruct (match_total (restrict_attendees None atts) (obj s' r)) as [b B].
      { apply restrict_names; [discriminate|]. exact (cal_attendees_real s c atts EA). }
      rewrite B. f_equal. apply (match_spec _ _ _ B). pose proof (proj1 (match_spec _ _ _ Me) eq_refl) as S.
      destruct K as [[-> _]|(_ & _ & _ & P)]; [exact S|]. destruct S as (_ & _ & S). split; [discriminate|]. split; [discriminate|].
      intros l L. destruct (S l L) as (i & st & I1 & I2 & _). destruct (P i) as [P1 P2]. unfold attends in *.
      destruct (string_dec i main) as [->|NE].
      - exists main, "ACCEPTED"%string. split; [exact I1|]. split; [apply P1; reflexivity|]. split; [discriminate|discriminate].
      - exists i, st. split; [exact I1|]. split; [rewrite <- I2; apply P2; congruence|]. split; [discriminate|discriminate]. }
    destruct (forall2_in _ _ _ FA') as [FA1' _]. destruct (FA1' _ IN) as (v' & Hv' & X').
    apply in_map_iff. exists v'. split; [|exact Hv'].
    destruct K as [[K _]|(A1 & T & _)]; [rewrite K in X'; congruence|].
    destruct (text_again e _ v A1 T X) as (v2 & X2 & W). congruence.
Qed.
Print Assumptions C144_whole.

(** What has arrived in another store is exported there with the text that came,
    unless it is an all-day event of no length; so it can be passed on any number
    of times without further loss. *)
Theorem C144_passed_on cf1 s1 c1 p1 cr1 evs vs cf2 s2 c2 p2 cr2 sync s2' n :
  reachable cf1 s1 -> reachable cf2 s2 -> cal_events s1 c1 p1 cr1 = Ok evs -> export_cal s1 c1 p1 cr1 = Ok vs ->
  step cf2 s2 (OImport c2 (Ok (Some (map wire vs))) p2 cr2 sync) = (s2', n, Ok tt) ->
  forall e d, In e evs -> has_event s2 (e_uid e) = false -> e_duration e = Some d ->
  (e_allday e = true -> dt_date (e_dtstart e + d) <> dt_date (e_dtstart e)) ->
  exists r v v', get_event s2' (e_uid e) = Ok r /\ export_event false e = Ok v /\ export_event false (obj s2' r) = Ok v' /\ wire v' = wire v.
Proof.
  intros H1 H2 E EX ST e d He NEW D AD.
  destruct (C62_arrives_exact cf1 s1 c1 p1 cr1 evs vs cf2 s2 c2 p2 cr2 sync s2' n H1 H2 E EX ST e He NEW) as (r & o & G & _ & (A & (d' & D' & T1 & T2) & _) & _).
  assert (d' = d) by congruence. subst d'. destruct (exports s1 c1 p1 cr1 evs vs E EX) as [FA _].
  destruct (forall2_in _ _ _ FA) as [FA1 _]. destruct (FA1 e He) as (v & _ & X).
  assert (T : times_left e (obj s2' r)).
  { exists d. split; [exact D|]. split; [exact T1|]. rewrite T2. cbv zeta. destruct (e_allday e) eqn:AL; [|reflexivity].
    specialize (AD eq_refl). replace (_ =? 0) with false; [reflexivity|]. symmetry. apply Z.eqb_neq. revert AD.
    unfold cut. rewrite AL. unfold dt_date, DAY. lia. }
  destruct (text_again e _ v A T X) as (v' & X' & W). eauto 10.
Qed.
Print Assumptions C144_passed_on.

(** the first time three of the four events change, the second time none; the
    whole text stays the same; in another store so does each event's text *)
Example C144_case : exists vs s' vs',
  reachable cf0 x_mixed /\ main_attendee x_mixed 0 = Ok (Some "ann"%string) /\ export_cal x_mixed 0 (None, None) None = Ok vs
  /\ step cf0 x_mixed (OImport 0 (Ok (Some (map wire vs))) (None, None) None true) = (s', map NModified ["b"; "c"; "d"], Ok tt)%string
  /\ export_cal s' 0 (None, None) None = Ok vs' /\ List.length vs' = 4%nat /\ map wire vs' = map wire vs /\ vs' <> vs
  /\ exists s2, step cf0 (run cf0 office) (OImport 0 (Ok (Some (map wire vs))) (None, None) None false)
       = (s2, map NCreated ["a"; "b"; "c"; "d"], Ok tt)%string
     /\ (let* r := get_event s2 "c" in let* v := export_event false (obj s2 r) in Ok (wire v))
        = (let* v := export_event false (obj x_mixed 2) in Ok (wire v))
     /\ has_event (run cf0 office) "c" = false.
Proof.
  do 3 eexists. split; [apply run_reachable|]. do 6 (split; [vm_compute; reflexivity|]). split; [vm_compute; discriminate|].
  eexists. do 2 (split; [vm_compute; reflexivity|]). vm_compute. reflexivity.
Qed.

(** the second text can be smaller: an event that reached into the period by a
    fraction of a second no longer does; and an all-day event of no length
    is sent on with a day *)
Example C144_limits :
  (exists v s', export_cal x_mixed 0 (Some (p_at 732501 10 + 100000), Some (p_at 732501 11)) None = Ok v /\ map v_uid v = [Some "c"]%string
   /\ step cf0 x_mixed (OImport 0 (Ok (Some (map wire v))) (Some (p_at 732501 10 + 100000), Some (p_at 732501 11)) None true)
      = (s', [NModified "c"], Ok tt)%string
   /\ export_cal s' 0 (Some (p_at 732501 10 + 100000), Some (p_at 732501 11)) None = Ok [])
  /\ (let s := run cf0 [OAttendee "ann" "Ann" "INDIVIDUAL"; OCalendar; OAddAttendee 0 ann;
         OCreate (Some "z") (p_spec (p_at 732501 0) (Some DAY) true ann []) 0; OAssign 0 (p_spec (p_at 732501 0) (Some 0) true ann [])]%string in
      exists v s2 w, export_cal s 0 (None, None) None = Ok [v]
      /\ step cf0 (run cf0 office) (OImport 0 (Ok (Some [wire v])) (None, None) None false) = (s2, [NCreated "z"], Ok tt)%string
      /\ (let* r := get_event s2 "z" in export_event false (obj s2 r)) = Ok w /\ v_dtend v = Some (IDate 732501) /\ v_dtend w = Some (IDate 732502)).
Proof.
  split.
  - do 2 eexists. do 3 (split; [vm_compute; reflexivity|]). vm_compute. reflexivity.
  - cbv zeta. do 3 eexists. do 4 (split; [vm_compute; reflexivity|]). vm_compute. reflexivity.
Qed.
