(** Property theorems C140: a calendar is exported, the text is edited in some
    client and brought back by a synchronizing import (cal.py 700-746, 966-983). *)
From Verif Require Import Base PyDate DateFacts Recurrent RecurMisc CalTime TimeProofs Event Storage ICal System
  QueryProofs BlockProofs EventProofs SpecProofs SystemProofs StoreProofs IdProofs ImportProofs PropEvent PropSystem
  ICalProofs ImportContent ImportTwice PropICal PropImport PropRepeat PropCalendar PropExact PropRound.
From Coq Require Import ZifyBool.
Ltac Zify.zify_post_hook ::= Z.div_mod_to_equations.
Local Opaque ord2ymd year_of month_of day_of ymd2ord days_in_month is_leap.

(** ** Specification *)
(** [w] is an edited version of the exported component [v]: the same event, and
    no people added to the text (an export has none) *)
Definition edited (v w : vevent) : Prop := v_uid w = v_uid v /\ v_organizer w = None /\ v_attendees w = [].

(** [e'] differs from [e] only in parts whose line differs between the texts [v] and [w] *)
Definition only_edits (v w : vevent) (e e' : event) : Prop :=
  e_uid e' = e_uid e
  /\ (v_summary w = v_summary v -> e_title e' = e_title e)
  /\ (v_description w = v_description v -> e_description e' = e_description e)
  /\ (v_location w = v_location v -> e_location e' = e_location e)
  /\ (v_status w = v_status v -> e_status e' = e_status e)
  /\ (v_transp w = v_transp v -> e_transparent e' = e_transparent e)
  /\ (v_class w = v_class v -> e_access e' = e_access e)
  /\ (v_attach w = v_attach v -> e_document e' = e_document e)
  /\ (v_categories w = v_categories v -> forall c, In c (e_categories e') <-> In c (e_categories e))
  /\ (v_rrule w = v_rrule v -> opt_rule_eqb (e_recurrence e') (e_recurrence e) = true)
  /\ (v_dtstart w = v_dtstart v -> e_dtstart e' = e_dtstart e /\ e_allday e' = e_allday e)
  /\ (v_dtstart w = v_dtstart v -> v_dtend w = v_dtend v -> e_duration e' = e_duration e)
  /\ e_organizer e' = e_organizer e
  /\ forall a, get_status e' a = get_status e a /\ get_role e' a = get_role e a.

(** the notifications about the event with id [u] *)
Definition tells (u : string) (n : notification) : Prop :=
  match n with NCreated w | NModified w | NDeleted w | NParticipation w _ _ _ => w = u end.

(** ** Proofs *)
Lemma export_said tz e v : lossless e -> export_event false e = Ok v ->
  says_text (wire v) e
  /\ exists d t0 t1, e_duration e = Some d /\ v_dtstart (wire v) = Some t0 /\ v_dtend (wire v) = Some t1
     /\ local_time tz t0 (e_dtstart e) /\ local_time tz t1 (e_dtstart e + d) /\ e_allday e = is_date t0 /\ is_date t1 = is_date t0
     /\ forall x off, t0 <> IAware x off /\ t1 <> IAware x off.
Proof.
  intros ((d & D & OK & T) & R & DOC). unfold export_event. rewrite D. cbn [end_of]. unfold dt_add. rewrite OK. cbn [rbind].
  intros X. assert (V := f_equal (fun r => match r with Ok v => v | _ => v end) X). cbn in V. clear X. subst v. split.
  - unfold says_text, wire. cbn [v_summary v_description v_location v_status v_categories v_transp v_class v_attach v_rrule text].
    rewrite !text_truthy. do 4 (split; [reflexivity|]). split; [tauto|]. split; [destruct (e_transparent e); split; congruence|].
    split; [reflexivity|]. split; [destruct (e_document e) as [[|a x]|]; [congruence|reflexivity|reflexivity]|].
    destruct (e_recurrence e) as [r|]; [|reflexivity]. destruct (rule_round r (R r eq_refl)) as (r' & I1 & I2). exists r, r'. auto.
  - unfold wire. cbn [v_dtstart v_dtend]. exists d. eexists. eexists. split; [reflexivity|]. split; [reflexivity|]. split; [reflexivity|].
    unfold to_second, dt_date, SECOND, DAY in *. destruct (e_allday e); cbn [wire_time local_time is_date]; unfold to_second, SECOND, DAY in *;
      (split; [lia|]); (split; [lia|]); (split; [reflexivity|]); (split; [reflexivity|]); split; discriminate.
Qed.

Lemma local_time_fun tz t a b : (forall x off, t <> IAware x off) -> local_time tz t a -> local_time tz t b -> a = b.
Proof. intros N. destruct t as [d|y|y off]; cbn; [lia|lia|]. now destruct (N y off). Qed.

Lemma opt_rule_eqb_refl_trans (a b : option rule) : opt_rule_eqb a b = true -> opt_rule_eqb b a = true.
Proof. destruct a, b; cbn; try congruence. apply rule_eq_sym. Qed.

Lemma shown_known cf s c p cr evs e : reachable cf s -> cal_events s c p cr = Ok evs -> In e evs ->
  visible s c p cr (e_uid e) /\ exists r, get_event s (e_uid e) = Ok r /\ e = obj s r.
Proof.
  intros H E He. split; [exists evs, e; auto|].
  destruct (cal_events_known s c p cr evs e (reachable_store cf s H) E He) as (r & D & X). exists r. unfold get_event. now rewrite D.
Qed.

(** what became of the component [w] of a shown event, and who else is told of *)
Lemma edit_component cf s c p cr evs ws sync s' n e w : reachable cf s -> cal_events s c p cr = Ok evs -> In e evs ->
  NoDup (import_uids ws) -> step cf s (OImport c (Ok (Some ws)) p cr sync) = (s', n, Ok tt) ->
  In w ws -> v_uid w = Some (e_uid e) ->
  exists r sp, get_event s (e_uid e) = Ok r /\ e = obj s r /\ get_event s' (e_uid e) = Ok r
    /\ import_spec (cf_tz cf) (source_knows s) (main_attendee s c) w = Ok sp
    /\ (In (NModified (e_uid e)) n <-> will_modify sp e = Ok true)
    /\ ((will_modify sp e = Ok false /\ obj s' r = e) \/ (will_modify sp e = Ok true /\ exists n1, set_on_object sp e = (obj s' r, n1, Ok tt))).
Proof.
  intros H E He ND ST Hw W. destruct (shown_known cf s c p cr evs e H E He) as (VIS & r & G & OB).
  destruct (C85_import_exact cf s c ws p cr sync s' n H ND ST) as (ns & del & EN & FA & _ & _).
  destruct (forall2_in _ _ _ FA) as [F1 _]. destruct (F1 w Hw) as (nv & _ & (u & r' & V & G' & O)).
  assert (u = e_uid e) by congruence. subst u.
  destruct O as [(_ & G2 & sp & IS & O)|[(N & _)|(N & _)]].
  2:{ exfalso. unfold has_event in N. rewrite G in N. discriminate. }
  2:{ contradiction. }
  assert (r' = r) by congruence. subst r'. exists r, sp. do 4 (split; [assumption|]). rewrite OB at 2. split.
  - exact (C85_modified_iff cf s c ws p cr sync s' n w (e_uid e) r sp H ND ST Hw W VIS G IS).
  - rewrite <- OB in O. destruct O as [(O1 & O2 & _)|(O1 & O2 & _)]; [left|right]; auto.
Qed.

Lemma only_modified cf s c p cr evs ws sync s' n e : reachable cf s -> cal_events s c p cr = Ok evs -> In e evs ->
  step cf s (OImport c (Ok (Some ws)) p cr sync) = (s', n, Ok tt) -> In (e_uid e) (import_uids ws) ->
  forall x, In x n -> tells (e_uid e) x -> x = NModified (e_uid e).
Proof.
  intros H E He ST IN x Hx T. destruct (shown_known cf s c p cr evs e H E He) as (VIS & _).
  pose proof (C45_import_notices cf s c (Ok (Some ws)) p cr sync x H) as Q. rewrite ST in Q. specialize (Q Hx).
  destruct x as [u|u|u|u a b d]; cbn in T; subst; [|reflexivity| |destruct Q]; destruct Q as [Q1 Q2]; contradiction.
Qed.

(** * C140 *)
(** A component that was not edited: the event stays as it is, and nothing is
    said about it. *)
Theorem C140_unedited : forall cf s c p cr main evs ws sync s' n e v,
  reachable cf s -> main_attendee s c = Ok (Some main) -> cal_events s c p cr = Ok evs -> In e evs ->
  exportable main e -> export_event false e = Ok v ->
  NoDup (import_uids ws) -> step cf s (OImport c (Ok (Some ws)) p cr sync) = (s', n, Ok tt) -> In (wire v) ws ->
  exists r, get_event s (e_uid e) = Ok r /\ e = obj s r /\ get_event s' (e_uid e) = Ok r /\ obj s' r = e
    /\ forall x, In x n -> ~ tells (e_uid e) x.
Proof.
  intros cf s c p cr main evs ws sync s' n e v H M E He EX X ND ST Hw.
  destruct (spec_back (cf_tz cf) (source_knows s) (main_attendee s c) e v X) as (V & B & _).
  destruct (edit_component cf s c p cr evs ws sync s' n e (wire v) H E He ND ST Hw V) as (r & sp & G & OB & G' & IS & MO & O).
  destruct (B sp IS) as [S DF]. destruct (spec_modifies e sp S) as (SM & _).
  assert (W : will_modify sp e = Ok false) by (apply SM; exists main; split; [congruence|exact EX]).
  exists r. do 3 (split; [assumption|]). split.
  - destruct O as [[_ O]|[O _]]; [exact O|congruence].
  - intros x Hx T. assert (x = NModified (e_uid e)).
    { eapply only_modified; eauto. unfold import_uids. apply in_flat_map. exists (wire v). change (v_uid (wire v)) with (v_uid v). rewrite V. split; [exact Hw|now left]. }
    subst x. apply MO in Hx. congruence.
Qed.
Print Assumptions C140_unedited.

(** An edited component: the event has what the text says now; parts whose lines
    were not edited and all participants are as before.  It is announced as modified
    exactly if it is not the same any more, and otherwise not mentioned. *)
Theorem C140_edited : forall cf s c p cr main evs ws sync s' n e v w,
  reachable cf s -> main_attendee s c = Ok (Some main) -> cal_events s c p cr = Ok evs -> In e evs ->
  exportable main e -> export_event false e = Ok v ->
  NoDup (import_uids ws) -> step cf s (OImport c (Ok (Some ws)) p cr sync) = (s', n, Ok tt) -> In w ws -> edited (wire v) w ->
  exists r d, get_event s (e_uid e) = Ok r /\ e = obj s r /\ get_event s' (e_uid e) = Ok r
    /\ says_text w (obj s' r) /\ e_duration (obj s' r) = Some d /\ says_times (cf_tz cf) w (e_dtstart (obj s' r)) d (e_allday (obj s' r))
    /\ only_edits (wire v) w e (obj s' r)
    /\ (In (NModified (e_uid e)) n <-> ~ same_public e (obj s' r))
    /\ forall x, In x n -> tells (e_uid e) x -> x = NModified (e_uid e).
Proof.
  intros cf s c p cr main evs ws sync s' n e v w H M E He EX X ND ST Hw (W & WO & WA).
  destruct (spec_back (cf_tz cf) (source_knows s) (main_attendee s c) e v X) as (V & _ & _).
  change (v_uid (wire v)) with (v_uid v) in W. rewrite V in W.
  destruct (shown_known cf s c p cr evs e H E He) as (VIS & _).
  destruct (edit_component cf s c p cr evs ws sync s' n e w H E He ND ST Hw W) as (r & sp & G & OB & G' & IS & MO & O).
  destruct (C48_existing cf s c ws p cr sync s' n w (e_uid e) H ND ST Hw W VIS) as (r1 & d & G1 & D & TI). assert (r1 = r) by congruence. subst r1.
  destruct (C61_content cf s c ws p cr sync s' n w (e_uid e) H ND ST Hw W (or_introl VIS)) as (r1 & G2 & TX & _). assert (r1 = r) by congruence. subst r1.
  exists r, d. do 6 (split; [assumption|]).
  pose proof EX as EX'. apply exportable_lossless in EX' as (LL & EO & ES & ER).
  destruct (export_said (cf_tz cf) e v LL X) as (TX0 & d0 & t0 & t1 & D0 & V0 & V1 & L0 & L1 & A0 & A1 & NA).
  assert (SPO : s_organizer sp = Some main /\ s_attendees sp = []).
  { revert IS. unfold import_spec. destruct (dtstart_duration (cf_tz cf) w) as [[[a1 a2] a3]| |]; try discriminate. cbn [rbind]. rewrite WO, WA, M. cbn [rbind map].
    destruct (match v_rrule w with None => Ok None | Some rr => let* r := import_rule rr in Ok (Some r) end) as [rec| |]; try discriminate. cbn [rbind].
    intros Y. apply (f_equal (fun z => match z with Ok x => x | _ => sp end)) in Y. subst sp. cbn. auto. }
  destruct SPO as [SPO SPA].
  assert (PEOPLE : e_organizer (obj s' r) = e_organizer e /\ e_uid (obj s' r) = e_uid e
     /\ forall a, get_status (obj s' r) a = get_status e a /\ get_role (obj s' r) a = get_role e a).
  { destruct O as [[_ ->]|[_ (n1 & SO)]]; [auto|].
    pose proof (set_on_object_attrs sp e) as AT. cbv zeta in AT. rewrite SO in AT. unfold mev in AT. cbn [fst] in AT.
    split; [decompose [and] AT; congruence|]. split; [now decompose [and] AT|].
    rewrite set_on_object_eq, SPA in SO. cbn [set_attendees] in SO. injection SO as SO _. rewrite <- SO, SPO. clear SO.
    intros [i|]; [|split; reflexivity]. unfold get_status, get_role. cbn. rewrite !dget_dset.
    destruct (String.eqb_spec i main) as [->|]; [|auto]. rewrite ES, ER. auto. }
  destruct PEOPLE as (PO & PU & PP).
  split; [|split].
  - destruct TX as (X1 & X2 & X3 & X4 & X5 & X6 & X7 & X8 & X9). destruct TX0 as (Y1 & Y2 & Y3 & Y4 & Y5 & Y6 & Y7 & Y8 & Y9).
    destruct TI as (t0' & T1 & T2 & T3 & T4).
    assert (ST0 : v_dtstart w = v_dtstart (wire v) -> t0' = t0) by congruence.
    unfold only_edits. split; [exact PU|]. do 4 (split; [congruence|]). split.
    { intros Q. rewrite Q in X6. destruct (e_transparent (obj s' r)), (e_transparent e); try reflexivity; exfalso.
      - assert (false = true) by (apply Y6, X6; reflexivity). discriminate.
      - assert (false = true) by (apply X6, Y6; reflexivity). discriminate. }
    do 2 (split; [congruence|]). split; [intros Q c0; rewrite X5, Y5, Q; tauto|]. split.
    { intros Q. rewrite Q in X9. destruct (v_rrule (wire v)) as [rr|].
      - destruct X9 as (r1 & r2 & -> & I1 & Q1). destruct Y9 as (r3 & r4 & -> & I2 & Q2). assert (r4 = r2) by congruence. subst r4.
        cbn. eapply rule_eq_trans; [exact Q1|now apply rule_eq_sym].
      - rewrite X9, Y9. reflexivity. }
    assert (SAME0 : v_dtstart w = v_dtstart (wire v) -> e_dtstart (obj s' r) = e_dtstart e).
    { intros Q. rewrite (ST0 Q) in T2. eapply local_time_fun; [|exact T2|exact L0]. intros x off. apply NA. }
    split; [intros Q; split; [now apply SAME0|rewrite T3, A0, (ST0 Q); reflexivity]|]. split; [|split; [exact PO|exact PP]].
    intros Q1 Q2. rewrite D, D0. f_equal. rewrite Q2, V1 in T4. specialize (SAME0 Q1). rewrite SAME0 in T4.
    assert (e_dtstart e + d = e_dtstart e + d0); [|lia]. eapply local_time_fun; [|exact T4|exact L1]. intros x off. apply NA.
  - rewrite MO. destruct O as [[O1 O2]|[O1 (n1 & SO)]].
    + rewrite O1, O2. split; [discriminate|]. intros N. destruct N. unfold same_public.
      do 7 (split; [reflexivity|]). split; [destruct (e_recurrence e); [cbn; apply rule_eq_tuple|]; reflexivity|]. split; [reflexivity|]. split; [tauto|]. repeat split; reflexivity.
    + split; [|intros _; exact O1]. intros _ (S0 & S1 & S2 & S3 & S4 & S5 & S6 & S7 & S8 & S9 & S10 & S11 & S12).
      pose proof (set_on_object_attrs sp e) as AT. cbv zeta in AT. rewrite SO in AT. unfold mev in AT. cbn [fst] in AT.
      destruct AT as (B0 & B1 & B2 & B3 & B4 & B5 & B6 & B7 & B8 & B9 & B10 & B11 & B12 & B13).
      assert (W' : will_modify sp e = Ok false); [|congruence]. apply C49_no_iff. split; [|split; [|rewrite SPA; constructor]].
      * unfold attrs_agree. do 6 (split; [congruence|]). split; [apply opt_rule_eqb_refl_trans; congruence|]. split; [congruence|].
        split; [intros c0; rewrite <- S9, B9; tauto|]. repeat split; congruence.
      * exists main. auto.
  - intros x Hx T. eapply only_modified; eauto. unfold import_uids. apply in_flat_map. exists w. rewrite W. split; [exact Hw|now left].
Qed.
Print Assumptions C140_edited.

(** A component taken out: the event is deleted, if the import synchronizes. *)
Theorem C140_removed : forall cf s c p cr evs ws s' n e,
  reachable cf s -> cal_events s c p cr = Ok evs -> In e evs ->
  step cf s (OImport c (Ok (Some ws)) p cr true) = (s', n, Ok tt) -> ~ In (e_uid e) (import_uids ws) ->
  get_event s' (e_uid e) = Raise KeyError /\ In (NDeleted (e_uid e)) n.
Proof.
  intros cf s c p cr evs ws s' n e H E He ST NI. destruct (shown_known cf s c p cr evs e H E He) as (VIS & _).
  destruct (C46_sync_exact cf s c ws p cr H ltac:(rewrite ST; reflexivity)) as (S1 & S2 & _). rewrite ST in S1, S2. unfold sst, snt in *. cbn [fst snd] in *.
  split; [|apply S2; assumption]. destruct (has_event s' (e_uid e)) eqn:HE.
  - destruct NI. now apply (S1 _ VIS).
  - unfold has_event in HE. unfold get_event in *. destruct (dget (sys_store s') (e_uid e)); [discriminate|reflexivity].
Qed.
Print Assumptions C140_removed.

(** Nothing else is touched: events the calendar does not show stay, what is new
    was added to the text. *)
Theorem C140_others : forall cf s c p cr ws sync s' n x,
  reachable cf s -> step cf s (OImport c (Ok (Some ws)) p cr sync) = (s', n, x) ->
  (forall u r, get_event s u = Ok r -> ~ visible s c p cr u -> get_event s' u = Ok r /\ obj s' r = obj s r)
  /\ (forall u, has_event s u = false -> ~ In u (import_uids ws) -> has_event s' u = false)
  /\ (forall m u, In m n -> tells u m -> visible s c p cr u \/ In u (import_uids ws)).
Proof.
  intros cf s c p cr ws sync s' n x H ST.
  destruct (C45_import_frame cf s c (Ok (Some ws)) p cr sync H) as (F1 & _ & _ & F4 & _).
  assert (S' : sst (step cf s (OImport c (Ok (Some ws)) p cr sync)) = s') by (now rewrite ST). rewrite S' in *.
  split; [exact F1|]. split.
  - intros u N NI. destruct (has_event s' u) eqn:HE; [|reflexivity]. unfold has_event in HE. destruct (get_event s' u) as [k| |] eqn:G; try discriminate.
    destruct (F4 u k G N) as [Y _]. contradiction.
  - intros m u Hm T. pose proof (C45_import_notices cf s c (Ok (Some ws)) p cr sync m H) as Q. rewrite ST in Q. specialize (Q Hm).
    destruct m; cbn in T; subst; tauto.
Qed.
Print Assumptions C140_others.

(** Taking components out of an export and bringing it back works, and deletes
    exactly the events taken out. *)
Theorem C140_only_removed : forall cf s c p cr main evs keep vs,
  reachable cf s -> main_attendee s c = Ok (Some main) -> cal_events s c p cr = Ok evs ->
  Forall (exportable main) evs -> rmap (export_event false) (filter keep evs) = Ok vs ->
  exists s' n, step cf s (OImport c (Ok (Some (map wire vs))) p cr true) = (s', n, Ok tt)
  /\ (forall u, get_event s' u = if existsb (fun e => String.eqb (e_uid e) u && negb (keep e)) evs then Raise KeyError else get_event s u)
  /\ (forall u r, get_event s' u = Ok r -> obj s' r = obj s r)
  /\ NoDup n /\ forall m, In m n <-> exists e, In e evs /\ keep e = false /\ m = NDeleted (e_uid e).
Proof.
  intros cf s c p cr main evs keep vs H M E EX X. pose proof (reachable_store cf s H) as I.
  apply rmap_forall2 in X.
  assert (NDE : NoDup (map e_uid evs)) by now apply (cal_events_nodup s c p cr).
  assert (U : import_uids (map wire vs) = map e_uid (filter keep evs)).
  { clear - X. induction X as [|e v es vs Y X IH]; [reflexivity|]. cbn [map]. unfold import_uids in *. cbn [flat_map]. rewrite IH.
    destruct (spec_back (fun _ => 0) (fun _ => true) (Ok None) e v Y) as (V & _). change (v_uid (wire v)) with (v_uid v). now rewrite V. }
  assert (NDF : NoDup (map e_uid (filter keep evs))).
  { clear - NDE. induction evs as [|e evs IH]; [constructor|]. cbn [map] in NDE. inversion NDE as [|? ? N1 N2]. subst. cbn [filter].
    destruct (keep e); [|now apply IH]. cbn [map]. constructor; [|now apply IH]. intros Y. apply N1. apply in_map_iff in Y as (e' & Q & Y).
    apply filter_In in Y as [Y _]. rewrite <- Q. now apply in_map. }
  assert (INJ : forall e e', In e evs -> In e' evs -> e_uid e = e_uid e' -> e = e').
  { clear - NDE. induction evs as [|a evs IH]; [intros e e' []|]. cbn [map] in NDE. inversion NDE as [|? ? N1 N2]. subst.
    intros e e' [<-|A] [<-|B] Q; [reflexivity| | |now apply IH]; destruct N1; [rewrite Q|rewrite <- Q]; now apply in_map. }
  destruct (forall2_in _ _ _ X) as [X1 X2].
  assert (OK : srs (step cf s (OImport c (Ok (Some (map wire vs))) p cr true)) = Ok tt).
  { cbn [step]. destruct (loop_succeeds cf c (nodup string_dec (map e_uid evs)) (map wire vs) s I) as (us & L).
    - apply (known_stored s c p cr evs I E).
    - now rewrite U.
    - intros w Hw. apply in_map_iff in Hw as (v & <- & Hv). destruct (X2 v Hv) as (e & He & Y). apply filter_In in He as [He _].
      pose proof (proj1 (Forall_forall _ _) EX e He) as EXe.
      destruct (event_round (cf_tz cf) (source_knows s) main e EXe) as (v' & sp & Y' & V & IS & WM). assert (v' = v) by congruence. subst v'.
      destruct (cal_events_known s c p cr evs e I E He) as (k & D & EK).
      destruct (spec_back (cf_tz cf) (source_knows s) (main_attendee s c) e v Y) as (_ & B & _). rewrite <- M in IS. destruct (B sp IS) as [S _].
      destruct (spec_sets e sp e S) as (e' & SO). rewrite EK in WM, SO.
      exists (e_uid e), k, sp, false. split; [exact V|]. split; [apply known_in; eauto|]. split; [exact D|]. split; [exact IS|]. split; [exact WM|]. eauto.
    - eapply loop_then_import; eauto. }
  destruct (step cf s (OImport c (Ok (Some (map wire vs))) p cr true)) as [[s' n] x] eqn:ST. unfold srs in OK. cbn [snd] in OK. subst x.
  exists s', n. split; [reflexivity|].
  assert (ND : NoDup (import_uids (map wire vs))) by now rewrite U.
  destruct (C140_others cf s c p cr (map wire vs) true s' n (Ok tt) H ST) as (O1 & O2 & _).
  assert (KEPT : forall e, In e evs -> keep e = true -> exists r, get_event s (e_uid e) = Ok r /\ get_event s' (e_uid e) = Ok r /\ obj s' r = obj s r).
  { intros e He K. destruct (X1 e) as (v & Hv & Y); [apply filter_In; auto|].
    destruct (C140_unedited cf s c p cr main evs (map wire vs) true s' n e v H M E He (proj1 (Forall_forall _ _) EX e He) Y ND ST (in_map wire _ _ Hv))
      as (r & G & OB & G' & OB' & _). exists r. split; [exact G|]. split; [exact G'|congruence]. }
  assert (GONE : forall e, In e evs -> keep e = false -> ~ In (e_uid e) (import_uids (map wire vs))).
  { intros e He K. rewrite U. intros Y. apply in_map_iff in Y as (e' & Q & Y). apply filter_In in Y as [Y1 Y2].
    assert (e' = e) by (apply INJ; assumption). congruence. }
  assert (GET : forall u, get_event s' u = if existsb (fun e => String.eqb (e_uid e) u && negb (keep e)) evs then Raise KeyError else get_event s u).
  { intros u. destruct (existsb _ evs) eqn:B.
    - apply existsb_exists in B as (e & He & B). apply andb_prop in B as [B1 B2]. apply String.eqb_eq in B1. subst u.
      apply (C140_removed cf s c p cr evs (map wire vs) s' n e H E He ST). apply GONE; [exact He|]. now destruct (keep e).
    - assert (NB : forall e, In e evs -> e_uid e = u -> keep e = true).
      { intros e He Q. destruct (keep e) eqn:K; [reflexivity|]. assert (existsb (fun e => String.eqb (e_uid e) u && negb (keep e)) evs = true); [|congruence].
        apply existsb_exists. exists e. split; [exact He|]. rewrite Q, String.eqb_refl, K. reflexivity. }
      destruct (in_dec string_dec u (map e_uid evs)) as [Y|N].
      + apply in_map_iff in Y as (e & Q & He). destruct (KEPT e He (NB e He Q)) as (r & G & G' & _). rewrite <- Q. congruence.
      + destruct (get_event s u) as [r|y|] eqn:G.
        * apply (O1 u r G). intros (evs' & e & E' & He & Q). assert (evs' = evs) by congruence. subst evs'. apply N. rewrite <- Q. now apply in_map.
        * assert (HN : has_event s' u = false).
          { apply O2; [unfold has_event; now rewrite G|]. rewrite U. intros Y. apply in_map_iff in Y as (e & Q & Y). apply filter_In in Y as [Y _]. apply N. rewrite <- Q. now apply in_map. }
          unfold has_event in HN. unfold get_event in *. destruct (dget (sys_store s') u); [discriminate|]. destruct (dget (sys_store s) u); [discriminate|exact G].
        * unfold get_event in G. destruct (dget (sys_store s) u); discriminate. }
  split; [exact GET|]. split; [|].
  - intros u r G. rewrite GET in G. destruct (existsb _ evs) eqn:B; [discriminate|].
    destruct (in_dec string_dec u (map e_uid evs)) as [Y|N].
    + apply in_map_iff in Y as (e & Q & He). destruct (keep e) eqn:K.
      * destruct (KEPT e He K) as (r' & G1 & _ & OB). rewrite Q in G1. congruence.
      * assert (existsb (fun e => String.eqb (e_uid e) u && negb (keep e)) evs = true); [|congruence].
        apply existsb_exists. exists e. split; [exact He|]. rewrite Q, String.eqb_refl, K. reflexivity.
    + apply (O1 u r G). intros (evs' & e & E' & He & Q). assert (evs' = evs) by congruence. subst evs'. apply N. rewrite <- Q. now apply in_map.
  - destruct (C85_import_exact cf s c (map wire vs) p cr true s' n H ND ST) as (ns & del & EN & FA & NDD & DEL).
    assert (Z : List.concat ns = []).
    { destruct (List.concat ns) as [|m l] eqn:CC; [reflexivity|]. exfalso. assert (IN : In m (List.concat ns)) by (rewrite CC; now left).
      apply in_concat in IN as (nv & Hn & Hm). destruct (forall2_in _ _ _ FA) as [_ F2]. destruct (F2 nv Hn) as (w & Hw & CO).
      apply in_map_iff in Hw as (v & <- & Hv). destruct (X2 v Hv) as (e & He & Y). apply filter_In in He as [He _].
      destruct (C140_unedited cf s c p cr main evs (map wire vs) true s' n e v H M E He (proj1 (Forall_forall _ _) EX e He) Y ND ST (in_map wire _ _ Hv))
        as (r & _ & _ & _ & _ & Q). apply (Q m); [rewrite EN; now left|].
      destruct (spec_back (cf_tz cf) (source_knows s) (main_attendee s c) e v Y) as (V & _). destruct CO as (u & r' & W & _ & CO).
      change (v_uid (wire v)) with (v_uid v) in W. assert (u = e_uid e) by congruence. subst u.
      destruct CO as [(_ & _ & sp & _ & [(_ & _ & ->)|(_ & _ & ->)])|[(_ & sp & _ & _ & ->)|(_ & _ & _ & ->)]]; cbn in Hm; first [destruct Hm as [<-|[]]; reflexivity|destruct Hm]. }
    rewrite Z in EN. cbn [app] in EN. subst n. split; [apply FinFun.Injective_map_NoDup; [|exact NDD]; intros a b Q; congruence|].
    intros m. rewrite in_map_iff. split.
    + intros (u & <- & Hu). apply DEL in Hu as (_ & (evs' & e & E' & He & Q) & NI). assert (evs' = evs) by congruence. subst evs' u.
      exists e. split; [exact He|]. split; [|reflexivity]. destruct (keep e) eqn:K; [|reflexivity]. destruct NI. rewrite U. apply in_map, filter_In. auto.
    + intros (e & He & K & ->). exists (e_uid e). split; [reflexivity|]. apply DEL. split; [reflexivity|]. split; [exists evs, e; auto|]. now apply GONE.
Qed.
Print Assumptions C140_only_removed.

(** ** a diary whose text is edited: "a" is left alone, "b" taken out, "c" moved
    and renamed, "d" added *)
Definition shown_diary : list event := match cal_events x_diary 0 (None, None) None with Ok l => l | _ => [] end.
Definition text_of (u : string) : vevent :=
  match flat_map (fun e => if String.eqb (e_uid e) u then match export_event false e with Ok v => [wire v] | _ => [] end else []) shown_diary with
  | v :: _ => v
  | [] => mkV None None None None None None None None None [] [] None None None None
  end.
Definition moved (v : vevent) : vevent :=
  mkV (v_uid v) (Some (IFloat (p_at 732502 14))) (Some (IFloat (p_at 732502 16))) (v_duration v) (Some "Renamed"%string)
      (v_description v) (v_location v) (v_status v) (v_organizer v) (v_attendees v) (v_categories v) (v_transp v) (v_class v) (v_attach v) (v_rrule v).
Definition edited_text : list vevent :=
  [moved (text_of "c"); text_of "a";
   mkV (Some "d") (Some (IFloat (p_at 732503 9))) (Some (IFloat (p_at 732503 10))) None (Some "New") None None None None [] [] None None None None]%string.

Example C140_case : let r := step cf0 x_diary (OImport 0 (Ok (Some edited_text)) (None, None) None true) in
  reachable cf0 x_diary /\ main_attendee x_diary 0 = Ok (Some "ann"%string)
  /\ map e_uid shown_diary = ["a"; "b"; "c"]%string /\ Forall (exportable "ann") shown_diary
  /\ NoDup (import_uids edited_text) /\ edited (text_of "c") (moved (text_of "c"))
  /\ srs r = Ok tt /\ snt r = [NModified "c"; NCreated "d"; NDeleted "b"]%string
  /\ map (get_event (sst r)) ["a"; "b"; "c"; "d"]%string = [Ok 0%nat; Raise KeyError; Ok 2%nat; Ok 3%nat]
  /\ obj (sst r) 0 = obj x_diary 0
  /\ (e_title (obj (sst r) 2), e_dtstart (obj (sst r) 2), e_duration (obj (sst r) 2)) = ("Renamed"%string, p_at 732502 14, Some (2 * HOUR))
  /\ get_status (obj (sst r) 2) bob = Ok (Some "TENTATIVE"%string) /\ get_role (obj (sst r) 2) bob = Ok (Some "CHAIR"%string).
Proof.
  cbv zeta. split; [apply run_reachable|]. do 2 (split; [vm_compute; reflexivity|]). split.
  { destruct C47_case as (evs & E & _ & _ & F). unfold shown_diary. rewrite E. exact F. }
  split. { vm_compute. repeat constructor; cbn; intuition discriminate. }
  split; [vm_compute; auto|]. do 6 (split; [vm_compute; reflexivity|]). vm_compute; reflexivity.
Qed.

Definition not_b (e : event) : bool := negb (String.eqb (e_uid e) "b").
Definition kept_text : list vevent := match rmap (export_event false) (filter not_b shown_diary) with Ok vs => vs | _ => [] end.
Example C140_only_removed_case : match rmap (export_event false) (filter not_b shown_diary) with Ok _ => true | _ => false end = true
  /\ map v_uid kept_text = [Some "a"; Some "c"]%string
  /\ snt (step cf0 x_diary (OImport 0 (Ok (Some (map wire kept_text))) (None, None) None true)) = [NDeleted "b"%string].
Proof. split; [|split]; vm_compute; reflexivity. Qed.
