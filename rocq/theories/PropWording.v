(** Property theorems C161: texts are carried along. *)
From Verif Require Import Base PyDate Recurrent Util CalTime Event Storage ICal System.
From Verif Require Import IdProofs SystemProofs PropSystem PropRename.

(** ** Specification: the same calendar in other words *)
Record wording := Wording { ti : string -> string; de : string -> string; lo : string -> string; doc : string -> string;
                            ca : string -> string; st : string -> string; ac : string -> string }.

Definition wd_event (w : wording) (e : event) : event :=
  {| e_uid := e_uid e; e_dtstart := e_dtstart e; e_duration := e_duration e; e_title := ti w (e_title e);
     e_description := de w (e_description e); e_location := lo w (e_location e); e_status := st w (e_status e); e_recurrence := e_recurrence e;
     e_allday := e_allday e; e_categories := map (ca w) (e_categories e); e_transparent := e_transparent e; e_access := ac w (e_access e);
     e_document := option_map (doc w) (e_document e); e_organizer := e_organizer e; e_state := e_state e; e_role := e_role e |}.
Definition wd_spec (w : wording) (s : spec) : spec :=
  {| s_dtstart := s_dtstart s; s_duration := s_duration s; s_title := ti w (s_title s); s_description := de w (s_description s);
     s_location := lo w (s_location s); s_status := st w (s_status s); s_recurrence := s_recurrence s; s_allday := s_allday s;
     s_categories := map (ca w) (s_categories s); s_transparent := s_transparent s; s_access := ac w (s_access s);
     s_document := option_map (doc w) (s_document s); s_organizer := s_organizer s; s_attendees := s_attendees s |}.
Definition wd_vevent (w : wording) (v : vevent) : vevent :=
  {| v_uid := v_uid v; v_dtstart := v_dtstart v; v_dtend := v_dtend v; v_duration := v_duration v;
     v_summary := option_map (ti w) (v_summary v); v_description := option_map (de w) (v_description v);
     v_location := option_map (lo w) (v_location v); v_status := option_map (st w) (v_status v);
     v_organizer := v_organizer v; v_attendees := v_attendees v; v_categories := map (ca w) (v_categories v); v_transp := v_transp v;
     v_class := option_map (ac w) (v_class v); v_attach := option_map (doc w) (v_attach v); v_rrule := v_rrule v |}.
Definition wd_crit (w : wording) (c : criteria) : criteria :=
  {| c_attendees := c_attendees c; c_status := c_status c; c_role := c_role c;
     c_categories := option_map (map (ca w)) (c_categories c); c_organizer := c_organizer c |}.
Definition wd_occ (w : wording) (o : occurrence event) : occurrence event := mkOcc (o_dtstart o) (o_duration o) (wd_event w (o_original o)).
Definition wd_sys (w : wording) (s : system) : system := with_heap s (map (wd_event w) (sys_heap s)).
Definition wd_op (w : wording) (o : op) : op :=
  match o with
  | OCreate u sp now => OCreate u (wd_spec w sp) now
  | OAttendeeCreate i sp now => OAttendeeCreate i (wd_spec w sp) now
  | OAssign r sp => OAssign r (wd_spec w sp)
  | OSpecify r sp => OSpecify r (wd_spec w sp)
  | OImport c parsed p cr sync => OImport c (returned (option_map (map (wd_vevent w))) parsed) p (option_map (wd_crit w) cr) sync
  | o => o
  end.

(** cancelled events stay cancelled, and no others are *)
Definition keeps_cancelled (w : wording) : Prop := forall x, st w x = "CANCELED"%string <-> x = "CANCELED"%string.

(** different texts stay different, the empty one stays empty, and the words the
    library itself puts in when a text lacks them stay *)
Definition distinct_words (w : wording) : Prop :=
  inj (ti w) /\ inj (de w) /\ inj (lo w) /\ inj (doc w) /\ inj (ca w) /\ inj (st w) /\ inj (ac w).
Definition own_words (w : wording) : Prop :=
  ti w "" = ""%string /\ de w "" = ""%string /\ lo w "" = ""%string /\ doc w "" = ""%string
  /\ st w "" = ""%string /\ st w "TENTATIVE" = "TENTATIVE"%string /\ st w "CANCELED" = "CANCELED"%string
  /\ ac w "" = ""%string /\ ac w "PUBLIC" = "PUBLIC"%string.

(** ** one event *)
Definition wd_mut (w : wording) (m : mut) : mut := let '(e, x, r) := m in (wd_event w e, x, r).

Lemma mbind_wd w m f h : (forall e, h (wd_event w e) = wd_mut w (f e)) -> mbind (wd_mut w m) h = wd_mut w (mbind m f).
Proof. intros H. destruct m as [[e x] [u|x'|]]; cbn [wd_mut mbind]; [|reflexivity..]. rewrite H. now destruct (f e) as [[e2 x2] r2]. Qed.
Lemma set_status_raw_wd w e a x : set_status_raw (wd_event w e) a x = wd_mut w (set_status_raw e a x).
Proof.
  unfold set_status_raw. destruct (attendee_id a) as [i| |]; [|reflexivity..]. destruct x as [s|]; [reflexivity|].
  change (e_state (wd_event w e)) with (e_state e). destruct (ddel (e_state e) i) as [d| |]; [|reflexivity..]. cbv zeta.
  change (e_role (with_state (wd_event w e) d)) with (e_role (with_state e d)). destruct (ddel (e_role (with_state e d)) i); reflexivity.
Qed.
Lemma set_status_wd w e a x : set_status (wd_event w e) a x = wd_mut w (set_status e a x).
Proof.
  unfold set_status. destruct (match x with None => true | Some s => str_in s statuses end); [|reflexivity].
  change (get_status (wd_event w e) a) with (get_status e a). destruct (get_status e a) as [old| |]; [|reflexivity..].
  destruct (opt_str_eqb old x); [reflexivity|]. rewrite set_status_raw_wd. apply mbind_wd. reflexivity.
Qed.
Lemma set_role_wd w e a ro : set_role (wd_event w e) a ro = wd_mut w (set_role e a ro).
Proof. unfold set_role. destruct (str_in ro roles); [|reflexivity]. now destruct (attendee_id a). Qed.
Lemma invite_wd w l : forall e, invite (wd_event w e) l = wd_mut w (invite e l).
Proof.
  induction l as [|a l IH]; intros e; [reflexivity|]. cbn [invite]. change (get_status (wd_event w e) a) with (get_status e a).
  destruct (get_status e a) as [[s|]| |]; [apply IH| |reflexivity..]. rewrite set_status_wd.
  rewrite (mbind_wd w _ (fun e1 => set_role e1 a "REQ-PARTICIPANT") _) by (intros; apply set_role_wd). apply mbind_wd. exact IH.
Qed.
Lemma set_attendees_wd w l : forall e, set_attendees (wd_event w e) l = wd_mut w (set_attendees e l).
Proof.
  induction l as [|[[a ro] x] l IH]; intros e; [reflexivity|]. cbn [set_attendees]. rewrite set_role_wd.
  rewrite (mbind_wd w _ (fun e1 => set_status_raw e1 a x) _) by (intros; apply set_status_raw_wd). apply mbind_wd. exact IH.
Qed.
Lemma set_attrs_wd w sp e : set_attrs (wd_spec w sp) (wd_event w e) = wd_event w (set_attrs sp e).
Proof. reflexivity. Qed.
Lemma set_on_object_wd w sp e : set_on_object (wd_spec w sp) (wd_event w e) = wd_mut w (set_on_object sp e).
Proof.
  unfold set_on_object. rewrite set_attrs_wd. cbn [wd_spec s_organizer s_attendees]. destruct (s_organizer sp) as [i|].
  - rewrite set_status_raw_wd. rewrite (mbind_wd w _ (fun e1 => set_role e1 (Some i) "REQ-PARTICIPANT") _) by (intros; apply set_role_wd).
    rewrite (mbind_wd w _ (fun e2 => (with_organizer e2 (Some i), [], Ok tt)) _) by reflexivity. apply mbind_wd. intros e'. apply set_attendees_wd.
  - apply (mbind_wd w (with_organizer (set_attrs sp e) None, [], Ok tt)). intros e'. apply set_attendees_wd.
Qed.
Lemma allday_adjust_wd w e : allday_adjust (wd_event w e) = wd_event w (allday_adjust e).
Proof. unfold allday_adjust. cbn [wd_event e_duration e_dtstart]. now destruct (e_duration e). Qed.
Lemma new_event_wd w u sp : new_event u (wd_spec w sp) = returned (wd_event w) (new_event u sp).
Proof.
  unfold new_event.
  assert (B : set_attrs (wd_spec w sp) (blank u) = set_attrs (wd_spec w sp) (wd_event w (blank u))) by reflexivity.
  assert (S : set_on_object (wd_spec w sp) (blank u) = set_on_object (wd_spec w sp) (wd_event w (blank u))) by (unfold set_on_object; now rewrite B).
  rewrite S, set_on_object_wd. destruct (set_on_object sp (blank u)) as [[e x] [v|x'|]]; cbn [wd_mut returned]; [|reflexivity..].
  change (e_allday (wd_event w e)) with (e_allday e). destruct (e_allday e); [now rewrite allday_adjust_wd|reflexivity].
Qed.
Lemma set_eqb_inj f a b : inj f -> set_eqb (map f a) (map f b) = set_eqb a b.
Proof.
  intros J. assert (X : forall a b, forallb (fun x => str_in x (map f b)) (map f a) = forallb (fun x => str_in x b) a).
  { clear a b. intros a b. induction a as [|x a IH]; [reflexivity|]. cbn [map forallb]. now rewrite IH, str_in_inj. }
  unfold set_eqb. now rewrite !X.
Qed.
Lemma attrs_differ_wd w sp e : distinct_words w -> attrs_differ (wd_spec w sp) (wd_event w e) = attrs_differ sp e.
Proof.
  intros (J1 & J2 & J3 & J4 & J5 & J6 & J7). unfold attrs_differ.
  cbn [wd_spec wd_event s_dtstart s_duration s_title s_description s_location s_status s_recurrence s_allday s_categories s_transparent s_access s_document
       e_dtstart e_duration e_title e_description e_location e_status e_recurrence e_allday e_categories e_transparent e_access e_document].
  rewrite (eqb_inj (ti w)), (eqb_inj (de w)), (eqb_inj (lo w)), (eqb_inj (st w)), (eqb_inj (ac w)), set_eqb_inj, opt_eqb_inj by assumption. reflexivity.
Qed.
Lemma attendees_differ_wd w e l : attendees_differ (wd_event w e) l = attendees_differ e l.
Proof. induction l as [|[[a ro] x] l IH]; [reflexivity|]. cbn [attendees_differ]. now rewrite IH. Qed.
Lemma will_modify_wd w sp e : distinct_words w -> will_modify (wd_spec w sp) (wd_event w e) = will_modify sp e.
Proof.
  intros D. unfold will_modify. rewrite (attrs_differ_wd w sp e D). destruct (attrs_differ sp e); [reflexivity|]. cbn [wd_spec s_organizer s_attendees]. now rewrite attendees_differ_wd.
Qed.

(** ** queries *)
Lemma match_criteria_wd w c e : inj (ca w) -> match_criteria (wd_crit w c) (wd_event w e) = match_criteria c e.
Proof.
  intros J. unfold match_criteria. cbn [wd_crit c_categories c_organizer c_attendees].
  replace (match option_map (map (ca w)) (c_categories c) with Some cats => negb (existsb (in_category (wd_event w e)) cats) | None => false end)
    with (match c_categories c with Some cats => negb (existsb (in_category e) cats) | None => false end).
  - destruct (match c_categories c with Some cats => _ | None => false end); [reflexivity|]. apply bind_ext. intros []; [reflexivity|].
    destruct (c_attendees c) as [l|]; [|reflexivity]. induction l as [|a l IH]; [reflexivity|]. cbn [match_attendees]. now rewrite IH.
  - destruct (c_categories c) as [k|]; [|reflexivity]. cbn [option_map]. f_equal. induction k as [|x k IH]; [reflexivity|]. cbn [map existsb].
    rewrite <- IH. f_equal. unfold in_category. cbn [wd_event e_categories]. symmetry. now apply str_in_inj.
Qed.
(** criteria that name no categories do not look at texts at all *)
Lemma match_criteria_any w c e : c_categories c = None -> match_criteria c (wd_event w e) = match_criteria c e.
Proof.
  intros N. unfold match_criteria. rewrite N. apply bind_ext. intros []; [reflexivity|].
  destruct (c_attendees c) as [l|]; [|reflexivity]. induction l as [|a l IH]; [reflexivity|]. cbn [match_attendees]. now rewrite IH.
Qed.
Definition no_categories (c : option criteria) : Prop := match c with Some c => c_categories c = None | None => True end.
Lemma matching_wd w evs c : inj (ca w) -> matching_events (map (wd_event w) evs) (option_map (wd_crit w) c) = returned (map (wd_event w)) (matching_events evs c).
Proof.
  intros J. unfold matching_events. apply rfilter_map. intros e. destruct c; cbn [option_map]; [now apply match_criteria_wd|]. now apply match_criteria_any.
Qed.
Lemma matching_any w evs c : no_categories c -> matching_events (map (wd_event w) evs) c = returned (map (wd_event w)) (matching_events evs c).
Proof. intros N. unfold matching_events. apply rfilter_map. intros e. apply match_criteria_any. destruct c; [exact N|reflexivity]. Qed.
Lemma get_events_wd w evs p c : inj (ca w) -> get_events (map (wd_event w) evs) p (option_map (wd_crit w) c) = returned (map (wd_event w)) (get_events evs p c).
Proof. intros J. unfold get_events. rewrite matching_wd by exact J. rewrite bind_returned, returned_bind. apply bind_ext. intros l. now apply rfilter_map. Qed.
Lemma get_events_any w evs p c : no_categories c -> get_events (map (wd_event w) evs) p c = returned (map (wd_event w)) (get_events evs p c).
Proof. intros J. unfold get_events. rewrite matching_any by exact J. rewrite bind_returned, returned_bind. apply bind_ext. intros l. now apply rfilter_map. Qed.
Lemma expand_wd w F e p : expand F (wd_event w e) p = returned (map (wd_occ w)) (expand F e p).
Proof.
  unfold expand. change (e_recurrence (wd_event w e)) with (e_recurrence e). change (e_dtstart (wd_event w e)) with (e_dtstart e).
  change (e_duration (wd_event w e)) with (e_duration e). destruct (e_recurrence e) as [r|].
  - destruct (snd p) as [pe|]; [|reflexivity]. destruct (apply F r (e_dtstart e) _) as [l f].
    replace (expand_dates (wd_event w e) p l) with (returned (map (wd_occ w)) (expand_dates e p l)).
    + rewrite bind_returned, returned_bind. apply bind_ext. intros out. now destruct f.
    + symmetry. unfold expand_dates. rewrite <- (map_id l) at 1. apply rconcat_map_map. intros d. change (e_dtstart (wd_event w e)) with (e_dtstart e).
      change (e_duration (wd_event w e)) with (e_duration e). cbv zeta. destruct (in_period _ _ _) as [[]| |]; reflexivity.
  - destruct (in_period _ _ _) as [[]| |]; reflexivity.
Qed.
Lemma get_occurrences_wd w F evs p c : inj (ca w) ->
  get_occurrences F (map (wd_event w) evs) p (option_map (wd_crit w) c) = returned (map (wd_occ w)) (get_occurrences F evs p c).
Proof.
  intros J. unfold get_occurrences. rewrite returned_bind. apply bind_ext. intros _. rewrite matching_wd by exact J.
  rewrite bind_returned, returned_bind. apply bind_ext. intros l. apply rconcat_map_map. intros e. apply expand_wd.
Qed.
Lemma get_occurrences_any w F evs p c : no_categories c ->
  get_occurrences F (map (wd_event w) evs) p c = returned (map (wd_occ w)) (get_occurrences F evs p c).
Proof.
  intros J. unfold get_occurrences. rewrite returned_bind. apply bind_ext. intros _. rewrite matching_any by exact J.
  rewrite bind_returned, returned_bind. apply bind_ext. intros l. apply rconcat_map_map. intros e. apply expand_wd.
Qed.
Lemma emit_wd w e p : forall l en, emit_segments (wd_event w e) p en l = returned (map (wd_occ w)) (emit_segments e p en l).
Proof.
  induction l as [|s l IH]; intros en; [reflexivity|]. cbn [emit_segments]. rewrite IH, returned_bind. apply bind_ext. intros b.
  rewrite bind_returned, returned_bind. apply bind_ext. intros r. now destruct b.
Qed.
Lemma segment_wd w b l : segment_occurrences b (map (wd_occ w) l) = returned (map (wd_occ w)) (segment_occurrences b l).
Proof.
  unfold segment_occurrences. apply rconcat_map_map. intros o. unfold segment_one. change (o_dtstart (wd_occ w o)) with (o_dtstart o).
  change (o_duration (wd_occ w o)) with (o_duration o). cbv zeta. rewrite returned_bind. apply bind_ext. intros y. rewrite returned_bind. apply bind_ext. intros bs.
  apply emit_wd.
Qed.
Lemma segmented_wd w F evs p c : inj (ca w) ->
  get_occurrences_segmented F (map (wd_event w) evs) p (option_map (wd_crit w) c) = returned (map (wd_occ w)) (get_occurrences_segmented F evs p c).
Proof.
  intros J. unfold get_occurrences_segmented. rewrite get_occurrences_wd by exact J. rewrite bind_returned, returned_bind. apply bind_ext. intros l.
  rewrite returned_bind. apply bind_ext. intros b. apply segment_wd.
Qed.
Lemma segmented_any w F evs p c : no_categories c ->
  get_occurrences_segmented F (map (wd_event w) evs) p c = returned (map (wd_occ w)) (get_occurrences_segmented F evs p c).
Proof.
  intros J. unfold get_occurrences_segmented. rewrite get_occurrences_any by exact J. rewrite bind_returned, returned_bind. apply bind_ext. intros l.
  rewrite returned_bind. apply bind_ext. intros b. apply segment_wd.
Qed.
Lemma blocked_of_wd w a b e tb te o : keeps_cancelled w -> blocked_of a b e tb te (wd_occ w o) = blocked_of a b e tb te o.
Proof.
  intros K. unfold blocked_of. change (o_dtstart (wd_occ w o)) with (o_dtstart o). change (o_duration (wd_occ w o)) with (o_duration o).
  change (o_original (wd_occ w o)) with (wd_event w (o_original o)). unfold blocks.
  change (e_transparent (wd_event w (o_original o))) with (e_transparent (o_original o)).
  change (get_status (wd_event w (o_original o)) a) with (get_status (o_original o) a).
  change (e_status (wd_event w (o_original o))) with (st w (e_status (o_original o))).
  replace (String.eqb (st w (e_status (o_original o))) "CANCELED") with (String.eqb (e_status (o_original o)) "CANCELED"); [reflexivity|].
  specialize (K (e_status (o_original o))). destruct (String.eqb_spec (e_status (o_original o)) "CANCELED"), (String.eqb_spec (st w (e_status (o_original o))) "CANCELED"); tauto.
Qed.
Lemma get_blocked_wd w F evs atts b e tb te : keeps_cancelled w ->
  get_blocked F (map (wd_event w) evs) atts b e tb te = get_blocked F evs atts b e tb te.
Proof.
  intros K. unfold get_blocked. erewrite rconcat_ext; [reflexivity|]. intros a. cbv beta.
  rewrite segmented_any by reflexivity. rewrite bind_returned. apply bind_ext. intros l. apply rconcat_map_same. intros o. now apply blocked_of_wd.
Qed.

(** Whatever the events say, and whether or not different texts become the same:
    what takes place when, and the blocked and free time, are the same. *)
Theorem C161_times : forall w evs,
  (forall p c, no_categories c -> get_events (map (wd_event w) evs) p c = returned (map (wd_event w)) (get_events evs p c))
  /\ (forall F p c, no_categories c -> get_occurrences F (map (wd_event w) evs) p c = returned (map (wd_occ w)) (get_occurrences F evs p c))
  /\ (forall F p c, no_categories c -> get_occurrences_segmented F (map (wd_event w) evs) p c = returned (map (wd_occ w)) (get_occurrences_segmented F evs p c))
  /\ (keeps_cancelled w -> forall F l b e tb te, get_blocked F (map (wd_event w) evs) l b e tb te = get_blocked F evs l b e tb te
        /\ forall m, get_free F (map (wd_event w) evs) l b e tb te m = get_free F evs l b e tb te m)
  /\ (forall e e', event_cmp (wd_event w e) (wd_event w e') = event_cmp e e')
  /\ (forall e, ac w (e_access e) = e_access e -> export_event true (wd_event w e) = export_event true e).
Proof.
  intros w evs. split; [intros; now apply get_events_any|]. split; [intros; now apply get_occurrences_any|]. split; [intros; now apply segmented_any|].
  split. { intros K F l b e tb te. split; [now apply get_blocked_wd|]. intros m. unfold get_free. now rewrite get_blocked_wd. }
  split; [reflexivity|]. intros e A. unfold export_event. cbn [wd_event e_dtstart e_duration e_allday e_recurrence e_transparent e_uid e_access]. rewrite A. reflexivity.
Qed.
Print Assumptions C161_times.

(** ** the system *)
Definition wd_smut {A B} (w : wording) (f : A -> B) (m : smut A) : smut B := let '(s, x, r) := m in (wd_sys w s, x, returned f r).

Lemma sbind_wd {A B C D} w (f : A -> B) (h : C -> D) m k q : (forall s a, q (wd_sys w s) (f a) = wd_smut w h (k s a)) ->
  sbind (wd_smut w f m) q = wd_smut w h (sbind m k).
Proof. intros H. destruct m as [[s x] [a|x'|]]; cbn [wd_smut returned sbind]; [|reflexivity..]. rewrite H. now destruct (k s a) as [[s2 x2] r2]. Qed.
Lemma blank_wd w : own_words w -> wd_event w (blank "") = blank "".
Proof. intros (A & B & C & D & E & F & G & H & I). unfold wd_event, blank. cbn. now rewrite A, B, C, E, H. Qed.
Lemma obj_wd w s r : own_words w -> obj (wd_sys w s) r = wd_event w (obj s r).
Proof. intros O. unfold obj. cbn [wd_sys with_heap sys_heap]. rewrite <- (blank_wd w O) at 1. apply map_nth. Qed.
Lemma stored_wd w s : own_words w -> stored (wd_sys w s) = map (wd_event w) (stored s).
Proof. intros O. unfold stored. rewrite map_map. apply map_ext. intros kv. now apply obj_wd. Qed.
Lemma on_event_wd w s r f h : own_words w -> (forall e, h (wd_event w e) = wd_mut w (f e)) ->
  on_event (wd_sys w s) r h = wd_smut w (fun u => u) (on_event s r f).
Proof.
  intros O H. unfold on_event. rewrite obj_wd by exact O. rewrite H. destruct (f (obj s r)) as [[e x] y]. cbn [wd_mut wd_smut].
  unfold wd_sys, with_heap. cbn [sys_heap sys_store sys_source sys_cals]. rewrite replace_nth_map. destruct y as [[]| |]; reflexivity.
Qed.
Lemma create_wd cf w s u sp now : create_event cf (wd_sys w s) u (wd_spec w sp) now = wd_smut w (fun r => r) (create_event cf s u sp now).
Proof.
  unfold create_event. change (sys_store (wd_sys w s)) with (sys_store s). cbv zeta. rewrite new_event_wd.
  destruct (new_event (match u with Some u => u | None => generated_id cf now (List.length (sys_store s)) end) sp) as [e|x|]; cbn [returned]; [|reflexivity..].
  cbn [wd_smut returned]. unfold wd_sys, with_heap. cbn [sys_heap sys_store sys_source sys_cals]. rewrite map_length, map_app. reflexivity.
Qed.
Lemma delete_wd w s r : own_words w -> delete_event (wd_sys w s) r = wd_smut w (fun u => u) (delete_event s r).
Proof.
  intros O. unfold delete_event. rewrite obj_wd by exact O. change (sys_store (wd_sys w s)) with (sys_store s). cbn [wd_event e_uid].
  destruct (ddel (sys_store s) (e_uid (obj s r))); reflexivity.
Qed.
Lemma clone_wd w c l : restrict_attendees (option_map (wd_crit w) c) l = wd_crit w (restrict_attendees c l).
Proof.
  destruct c as [c|]; [|reflexivity]. cbn [restrict_attendees option_map]. unfold clone, wd_crit. cbn. f_equal.
  now destruct (c_categories c) as [[|x y]|].
Qed.
Lemma cal_events_wd w s c p cr : inj (ca w) -> own_words w ->
  cal_events (wd_sys w s) c p (option_map (wd_crit w) cr) = returned (map (wd_event w)) (cal_events s c p cr).
Proof.
  intros J O. unfold cal_events. change (cal_attendees (wd_sys w s) c) with (cal_attendees s c). rewrite returned_bind. apply bind_ext. intros l.
  unfold calendar_events. rewrite clone_wd, stored_wd by exact O. exact (get_events_wd w (stored s) p (Some (restrict_attendees cr l)) J).
Qed.
Lemma import_spec_wd w tz known main v : own_words w ->
  import_spec tz known main (wd_vevent w v) = returned (wd_spec w) (import_spec tz known main v).
Proof.
  intros (A & B & C & D & E & F & G & H & I). unfold import_spec. change (dtstart_duration tz (wd_vevent w v)) with (dtstart_duration tz v).
  rewrite returned_bind. apply bind_ext. intros [[t d] ad]. cbv beta zeta. cbn [wd_vevent v_organizer v_attendees v_rrule]. rewrite returned_bind. apply bind_ext. intros o.
  rewrite returned_bind. apply bind_ext. intros r. cbn [returned]. unfold wd_spec.
  cbn [wd_vevent v_summary v_description v_location v_status v_categories v_transp v_class v_attach s_dtstart s_duration s_title s_description s_location s_status s_recurrence
       s_allday s_categories s_transparent s_access s_document s_organizer s_attendees].
  assert (X : forall (f : string -> string) o d, f d = d -> dflt (option_map f o) d = f (dflt o d)) by (intros f [x|] y Y; [reflexivity|symmetry; exact Y]).
  rewrite (X (ti w) _ _ A), (X (de w) _ _ B), (X (lo w) _ _ C), (X (st w) _ _ F), (X (ac w) _ _ I). reflexivity.
Qed.
Lemma slift_wd {A B} w s (f : A -> B) r : slift (wd_sys w s) (returned f r) = wd_smut w f (slift s r).
Proof. reflexivity. Qed.
Lemma import_existing_wd cf w s c u v : distinct_words w -> own_words w ->
  import_existing cf (wd_sys w s) c u (wd_vevent w v) = wd_smut w (fun u => u) (import_existing cf s c u v).
Proof.
  intros D O. unfold import_existing. change (get_event (wd_sys w s) u) with (get_event s u). rewrite <- (returned_id (fun r : nat => r) (get_event s u)) at 1 by reflexivity.
  rewrite slift_wd. apply sbind_wd. intros s1 r. change (source_knows (wd_sys w s1)) with (source_knows s1). change (main_attendee (wd_sys w s1) c) with (main_attendee s1 c).
  rewrite import_spec_wd by exact O. rewrite slift_wd. apply sbind_wd. intros s2 sp.
  rewrite obj_wd by exact O. rewrite will_modify_wd by exact D. rewrite <- (returned_id (fun r : bool => r) (will_modify sp (obj s2 r))) at 1 by reflexivity.
  rewrite slift_wd. apply sbind_wd. intros s3 [].
  - rewrite (on_event_wd w s3 r (set_on_object sp)) by (auto; intros; apply set_on_object_wd). apply sbind_wd. intros s4 _. rewrite obj_wd by exact O. reflexivity.
  - reflexivity.
Qed.
Lemma import_new_wd cf w s c u v : own_words w ->
  import_new cf (wd_sys w s) c u (wd_vevent w v) = wd_smut w (fun u => u) (import_new cf s c u v).
Proof.
  intros O. unfold import_new. change (source_knows (wd_sys w s)) with (source_knows s). change (main_attendee (wd_sys w s) c) with (main_attendee s c).
  rewrite import_spec_wd by exact O. rewrite slift_wd. apply sbind_wd. intros s2 sp. rewrite create_wd. apply sbind_wd. reflexivity.
Qed.
Lemma import_one_wd cf w s c known v : distinct_words w -> own_words w ->
  import_one cf (wd_sys w s) c known (wd_vevent w v) = wd_smut w (fun u => u) (import_one cf s c known v).
Proof.
  intros D O. unfold import_one. cbn [wd_vevent v_uid]. destruct (v_uid v) as [u|]; [|reflexivity].
  change (has_event (wd_sys w s) u) with (has_event s u). destruct (str_in u known); [|destruct (has_event s u)].
  - rewrite import_existing_wd by assumption. now apply sbind_wd.
  - reflexivity.
  - rewrite import_new_wd by assumption. now apply sbind_wd.
Qed.
Lemma import_loop_wd cf w c known l : distinct_words w -> own_words w -> forall s,
  import_loop cf (wd_sys w s) c known (map (wd_vevent w) l) = wd_smut w (fun u => u) (import_loop cf s c known l).
Proof.
  intros D O. induction l as [|v l IH]; intros s; [reflexivity|]. cbn [map import_loop]. rewrite import_one_wd by assumption. apply sbind_wd. intros s1 u.
  rewrite IH. now apply sbind_wd.
Qed.
Lemma delete_loop_wd w l : own_words w -> forall s, delete_loop (wd_sys w s) l = wd_smut w (fun u => u) (delete_loop s l).
Proof.
  intros O. induction l as [|u l IH]; intros s; [reflexivity|]. cbn [delete_loop]. change (get_event (wd_sys w s) u) with (get_event s u).
  rewrite <- (returned_id (fun r : nat => r) (get_event s u)) at 1 by reflexivity. rewrite slift_wd. apply sbind_wd. intros s1 r.
  rewrite delete_wd by exact O. apply sbind_wd. intros s2 _. apply IH.
Qed.
Lemma import_wd cf w s c parsed p cr sync : distinct_words w -> own_words w ->
  import_cal cf (wd_sys w s) c (returned (option_map (map (wd_vevent w))) parsed) p (option_map (wd_crit w) cr) sync
  = wd_smut w (fun u => u) (import_cal cf s c parsed p cr sync).
Proof.
  intros D O. pose proof D as (_ & _ & _ & _ & J & _). unfold import_cal. rewrite cal_events_wd by assumption. rewrite slift_wd. apply sbind_wd. intros s1 evs. cbv zeta.
  replace (map e_uid (map (wd_event w) evs)) with (map e_uid evs) by (rewrite map_map; reflexivity).
  rewrite slift_wd. apply sbind_wd. intros s2 [vs|]; cbn [option_map]; [|reflexivity]. rewrite import_loop_wd by assumption. apply sbind_wd. intros s3 ical.
  destruct sync; [|reflexivity]. now apply delete_loop_wd.
Qed.
Lemma drop_wd {A B} w (f : A -> B) m : drop (wd_smut w f m) = wd_smut w (fun u => u) (drop m).
Proof. destruct m as [[s x] [a|x'|]]; reflexivity. Qed.

(** A call in other words does, announces and ends as the call, in other words. *)
Theorem C161_call : forall cf w s o, distinct_words w -> own_words w ->
  let m := step cf s o in let m' := step cf (wd_sys w s) (wd_op w o) in
  sst m' = wd_sys w (sst m) /\ snt m' = snt m /\ srs m' = srs m.
Proof.
  intros cf w s o D O. cbv zeta.
  assert (X : step cf (wd_sys w s) (wd_op w o) = wd_smut w (fun u => u) (step cf s o)).
  { destruct o; cbn [wd_op step].
    - rewrite create_wd. apply drop_wd.
    - change (with_spec_organizer (wd_spec w sp) i) with (wd_spec w (with_spec_organizer sp i)). rewrite create_wd. apply drop_wd.
    - now apply delete_wd.
    - apply on_event_wd; [exact O|]. intros e. apply invite_wd.
    - apply on_event_wd; [exact O|]. intros e. apply set_status_wd.
    - apply on_event_wd; [exact O|]. intros e. apply set_role_wd.
    - apply on_event_wd; [exact O|]. intros e. now rewrite allday_adjust_wd.
    - apply on_event_wd; [exact O|]. reflexivity.
    - apply on_event_wd; [exact O|]. intros e. apply set_on_object_wd.
    - reflexivity.
    - reflexivity.
    - destruct a as [i|]; reflexivity.
    - destruct a as [i|]; [|reflexivity]. unfold remove_attendee. cbn [attendee_id rbind]. change (cal (wd_sys w s) c) with (cal s c).
      destruct (ddel (cal s c) i) as [d| |]; reflexivity.
    - now apply import_wd. }
  rewrite X. destruct (step cf s o) as [[s' x] [u|e|]]; auto.
Qed.
Print Assumptions C161_call.

(** So whatever can happen can happen in other words. *)
Theorem C161_history : forall cf w s h, distinct_words w -> own_words w -> history cf s h ->
  history cf (wd_sys w s) (map (fun c => (wd_op w (fst (fst c)), snd (fst c), snd c)) h).
Proof.
  intros cf w s h D O H. induction H as [|s h o s' x r H IH E]; [exact (history_init cf)|]. rewrite map_app. cbn [map fst snd].
  econstructor; [exact IH|]. destruct (C161_call cf w s o D O) as (A & B & C). rewrite E in A, B, C. unfold sst, snt, srs in A, B, C. cbn [fst snd] in A, B, C.
  destruct (step cf (wd_sys w s) (wd_op w o)) as [[s2 x2] r2]. cbn [fst snd] in A, B, C. now rewrite A, B, C.
Qed.
Print Assumptions C161_history.

Lemma truthy_wd (f : string -> string) x : inj f -> f ""%string = ""%string -> truthy (f x) = option_map f (truthy x).
Proof.
  intros J Z. destruct x as [|c x]; [now rewrite Z|]. cbn [truthy option_map]. destruct (f (String c x)) eqn:E; [|reflexivity].
  rewrite <- Z in E. apply J in E. discriminate.
Qed.

(** What is read, exported and compared is the same in other words. *)
Theorem C161_queries : forall w s, distinct_words w -> own_words w -> let t := wd_sys w s in
  (forall r, obj t r = wd_event w (obj s r))
  /\ (forall r sp, will_modify (wd_spec w sp) (obj t r) = will_modify sp (obj s r))
  /\ (forall r, export_event false (obj t r) = returned (wd_vevent w) (export_event false (obj s r)))
  /\ (forall r x, in_category (obj t r) (ca w x) = in_category (obj s r) x)
  /\ (forall c p cr, cal_events t c p (option_map (wd_crit w) cr) = returned (map (wd_event w)) (cal_events s c p cr))
  /\ (forall F l p cr, calendar_segmented F (stored t) l p (option_map (wd_crit w) cr) = returned (map (wd_occ w)) (calendar_segmented F (stored s) l p cr))
  /\ (forall c p cr, export_cal t c p (option_map (wd_crit w) cr) = returned (map (wd_vevent w)) (export_cal s c p cr)).
Proof.
  intros w s D O t. subst t. pose proof D as (J1 & J2 & J3 & J4 & J5 & J6 & J7). pose proof O as (Z1 & Z2 & Z3 & Z4 & _).
  assert (X : forall e, export_event false (wd_event w e) = returned (wd_vevent w) (export_event false e)).
  { intros e. unfold export_event. cbn [wd_event e_dtstart e_duration]. rewrite returned_bind. apply bind_ext. intros y. cbv zeta. cbn [returned].
    cbn [wd_event e_dtstart e_duration e_allday e_recurrence e_transparent e_uid e_access e_title e_description e_location e_status e_categories e_document].
    rewrite (truthy_wd (de w)), (truthy_wd (lo w)) by assumption. unfold wd_vevent.
    cbn [v_uid v_dtstart v_dtend v_duration v_summary v_description v_location v_status v_organizer v_attendees v_categories v_transp v_class v_attach v_rrule option_map].
    destruct (e_document e) as [d|]; [|reflexivity]. cbn [option_map]. now rewrite (truthy_wd (doc w)) by assumption. }
  split; [intros r; now apply obj_wd|]. split; [intros r sp; rewrite obj_wd by exact O; now apply will_modify_wd|].
  split; [intros r; rewrite obj_wd by exact O; apply X|].
  split; [intros r x; rewrite obj_wd by exact O; unfold in_category; cbn [wd_event e_categories]; now apply str_in_inj|].
  split; [intros c p cr; now apply cal_events_wd|]. split.
  { intros F l p cr. unfold calendar_segmented. rewrite clone_wd, stored_wd by exact O. exact (segmented_wd w F (stored s) p (Some (restrict_attendees cr l)) J5). }
  intros c p cr. unfold export_cal. rewrite cal_events_wd by assumption. rewrite bind_returned, returned_bind. apply bind_ext. intros l. apply rmap_map. exact X.
Qed.
Print Assumptions C161_queries.

(** Meetings and parties change places, and so do "Sport" and "Work", and CONFIRMED and
    CANCELLED (two l's, as RFC 2445 spells it: not a word the library knows). *)
Definition other_words : wording :=
  Wording (swap "Meeting" "Party") (swap "see below" "see above") (swap "room 1" "room 2") (swap "/doc" "/other") (swap "Sport" "Work")
          (swap "CONFIRMED" "CANCELLED") (swap "PRIVATE" "CONFIDENTIAL").
Example C161_case : let s := run cf0 office in let t := wd_sys other_words s in
  distinct_words other_words /\ own_words other_words /\ keeps_cancelled other_words /\ reachable cf0 s /\ t <> s
  /\ e_title (obj s 0) = "Meeting"%string /\ e_title (obj t 0) = "Party"%string
  /\ (let w := Wording (fun _ => "x"%string) (fun _ => "x"%string) (fun _ => "x"%string) (fun _ => "x"%string) (fun _ => "x"%string) (fun x => x) (fun _ => "x"%string) in
      keeps_cancelled w /\ ~ distinct_words w).
Proof.
  split; [repeat split; apply swap_inj|]. split; [repeat split|]. split.
  { intros x. cbn [st other_words]. unfold swap. destruct (String.eqb_spec x "CONFIRMED") as [->|]; [split; discriminate|].
    destruct (String.eqb_spec x "CANCELLED") as [->|]; [split; discriminate|]. tauto. }
  split; [apply run_reachable|]. split; [intros X; apply (f_equal (fun s => e_title (obj s 0))) in X; vm_compute in X; discriminate|].
  split; [reflexivity|]. split; [reflexivity|]. split; [intros x; reflexivity|]. intros (J & _). specialize (J "a"%string "b"%string eq_refl). discriminate.
Qed.
