(** Property theorems C158: ids are only names. *)
From Verif Require Import Base PyDate Recurrent Util CalTime Event Storage ICal System.
From Verif Require Import IdProofs SystemProofs PropSystem.

(** ** Specification: other names for the same events and people *)
Record naming := Naming { ev : string -> string; who : string -> string }.

(** a dictionary with other keys, a result with another value *)
Definition keyed {V} (f : string -> string) (d : dict V) : dict V := map (fun kv => (f (fst kv), snd kv)) d.
Definition returned {A B} (f : A -> B) (r : res A) : res B :=
  match r with Ok a => Ok (f a) | Raise x => Raise x | OutOfFuel => OutOfFuel end.

Definition re_att (n : naming) (a : attendee) : attendee := option_map (who n) a.
Definition re_event (n : naming) (e : event) : event :=
  {| e_uid := ev n (e_uid e); e_dtstart := e_dtstart e; e_duration := e_duration e; e_title := e_title e;
     e_description := e_description e; e_location := e_location e; e_status := e_status e; e_recurrence := e_recurrence e;
     e_allday := e_allday e; e_categories := e_categories e; e_transparent := e_transparent e; e_access := e_access e;
     e_document := e_document e; e_organizer := option_map (who n) (e_organizer e);
     e_state := keyed (who n) (e_state e); e_role := keyed (who n) (e_role e) |}.
Definition re_spec (n : naming) (s : spec) : spec :=
  {| s_dtstart := s_dtstart s; s_duration := s_duration s; s_title := s_title s; s_description := s_description s;
     s_location := s_location s; s_status := s_status s; s_recurrence := s_recurrence s; s_allday := s_allday s;
     s_categories := s_categories s; s_transparent := s_transparent s; s_access := s_access s; s_document := s_document s;
     s_organizer := re_att n (s_organizer s);
     s_attendees := map (fun a => (re_att n (fst (fst a)), snd (fst a), snd a)) (s_attendees s) |}.
Definition re_vevent (n : naming) (v : vevent) : vevent :=
  {| v_uid := option_map (ev n) (v_uid v); v_dtstart := v_dtstart v; v_dtend := v_dtend v; v_duration := v_duration v;
     v_summary := v_summary v; v_description := v_description v; v_location := v_location v; v_status := v_status v;
     v_organizer := option_map (who n) (v_organizer v);
     v_attendees := map (fun a => (who n (fst (fst a)), snd (fst a), snd a)) (v_attendees v);
     v_categories := v_categories v; v_transp := v_transp v; v_class := v_class v; v_attach := v_attach v; v_rrule := v_rrule v |}.
Definition re_note (n : naming) (x : notification) : notification :=
  match x with
  | NCreated u => NCreated (ev n u)
  | NModified u => NModified (ev n u)
  | NDeleted u => NDeleted (ev n u)
  | NParticipation u i old new => NParticipation (ev n u) (who n i) old new
  end.
Definition re_crit (n : naming) (c : criteria) : criteria :=
  {| c_attendees := option_map (map (re_att n)) (c_attendees c); c_status := c_status c; c_role := c_role c;
     c_categories := c_categories c; c_organizer := option_map (re_att n) (c_organizer c) |}.
Definition re_occ (n : naming) (o : occurrence event) : occurrence event :=
  mkOcc (o_dtstart o) (o_duration o) (re_event n (o_original o)).
Definition re_sys (n : naming) (s : system) : system :=
  {| sys_heap := map (re_event n) (sys_heap s); sys_store := keyed (ev n) (sys_store s);
     sys_source := keyed (who n) (sys_source s); sys_cals := map (keyed (who n)) (sys_cals s) |}.
Definition re_op (n : naming) (o : op) : op :=
  match o with
  | OCreate u sp now => OCreate (option_map (ev n) u) (re_spec n sp) now
  | OAttendeeCreate i sp now => OAttendeeCreate (who n i) (re_spec n sp) now
  | ODelete r => ODelete r
  | OInvite r l => OInvite r (map (re_att n) l)
  | OSetStatus r a st => OSetStatus r (re_att n a) st
  | OSetRole r a ro => OSetRole r (re_att n a) ro
  | OAdjust r => OAdjust r
  | OAssign r sp => OAssign r (re_spec n sp)
  | OSpecify r sp => OSpecify r (re_spec n sp)
  | OAttendee i name typ => OAttendee (who n i) name typ
  | OCalendar => OCalendar
  | OAddAttendee c a => OAddAttendee c (re_att n a)
  | ORemoveAttendee c a => ORemoveAttendee c (re_att n a)
  | OImport c parsed p cr sync => OImport c (returned (option_map (map (re_vevent n))) parsed) p (option_map (re_crit n) cr) sync
  end.

(** different ids get different names; the ids the storage makes up, and the
    empty one (which the model gives to objects that do not exist), stay *)
Definition faithful (cf : config) (n : naming) : Prop :=
  (forall x y, ev n x = ev n y -> x = y) /\ (forall x y, who n x = who n y -> x = y)
  /\ ev n "" = ""%string /\ forall now k, ev n (generated_id cf now k) = generated_id cf now k.

(** ** dictionaries and lists *)
Definition inj (f : string -> string) : Prop := forall x y, f x = f y -> x = y.

Lemma eqb_inj f x y : inj f -> String.eqb (f x) (f y) = String.eqb x y.
Proof.
  intros J. destruct (String.eqb_spec x y) as [->|N]; [apply String.eqb_refl|].
  destruct (String.eqb_spec (f x) (f y)) as [E|]; [|reflexivity]. now apply J in E.
Qed.
Lemma opt_eqb_inj f x y : inj f -> opt_str_eqb (option_map f x) (option_map f y) = opt_str_eqb x y.
Proof. intros J. destruct x, y; cbn; [now apply eqb_inj|reflexivity..]. Qed.
Lemma str_in_inj f x l : inj f -> str_in (f x) (map f l) = str_in x l.
Proof. intros J. unfold str_in. induction l as [|y l IH]; [reflexivity|]. cbn [map existsb]. now rewrite IH, eqb_inj. Qed.
Lemma dget_keyed {V} f (d : dict V) k : inj f -> dget (keyed f d) (f k) = dget d k.
Proof. intros J. unfold keyed. induction d as [|[a b] d IH]; [reflexivity|]. cbn. now rewrite eqb_inj, IH. Qed.
Lemma dset_keyed {V} f (d : dict V) k v : inj f -> dset (keyed f d) (f k) v = keyed f (dset d k v).
Proof. intros J. unfold keyed. induction d as [|[a b] d IH]; [reflexivity|]. cbn. rewrite eqb_inj, IH by exact J. now destruct (String.eqb k a). Qed.
Lemma drem_keyed {V} f (d : dict V) k : inj f -> drem (keyed f d) (f k) = keyed f (drem d k).
Proof. intros J. unfold keyed. induction d as [|[a b] d IH]; [reflexivity|]. cbn. rewrite eqb_inj, IH by exact J. now destruct (String.eqb k a). Qed.
Lemma ddel_keyed {V} f (d : dict V) k : inj f -> ddel (keyed f d) (f k) = returned (keyed f) (ddel d k).
Proof. intros J. unfold ddel. rewrite dget_keyed, drem_keyed by exact J. now destruct (dget d k). Qed.
Lemma dkeys_keyed {V} f (d : dict V) : dkeys (keyed f d) = map f (dkeys d).
Proof. unfold dkeys, keyed. now rewrite !map_map. Qed.

Lemma bind_returned {A B C} (f : A -> B) (r : res A) (k : B -> res C) : rbind (returned f r) k = rbind r (fun a => k (f a)).
Proof. now destruct r. Qed.
Lemma returned_bind {A B C} (f : B -> C) (r : res A) (k : A -> res B) : returned f (rbind r k) = rbind r (fun a => returned f (k a)).
Proof. now destruct r. Qed.
Lemma returned_id {A} (f : A -> A) r : (forall a, f a = a) -> returned f r = r.
Proof. intros H. destruct r; cbn; now rewrite ?H. Qed.
Lemma bind_ext {A B} (r : res A) (k k' : A -> res B) : (forall a, k a = k' a) -> rbind r k = rbind r k'.
Proof. intros H. destruct r; cbn; auto. Qed.

Lemma rfilter_map {A B} (f : A -> B) p q l : (forall a, q (f a) = p a) -> rfilter q (map f l) = returned (map f) (rfilter p l).
Proof.
  intros H. induction l as [|a l IH]; [reflexivity|]. cbn [map rfilter]. rewrite H, IH. destruct (p a) as [[]| |]; cbn; try reflexivity;
  destruct (rfilter p l); reflexivity.
Qed.
Lemma rmap_map {A B C D} (f : A -> B) (h : C -> D) p q l : (forall a, q (f a) = returned h (p a)) -> rmap q (map f l) = returned (map h) (rmap p l).
Proof.
  intros H. induction l as [|a l IH]; [reflexivity|]. cbn [map rmap]. rewrite H, IH. destruct (p a) as [x| |]; cbn; try reflexivity;
  destruct (rmap p l); reflexivity.
Qed.
Lemma rconcat_map_map {A B C D} (f : A -> B) (h : C -> D) p q l : (forall a, q (f a) = returned (map h) (p a)) ->
  rconcat_map q (map f l) = returned (map h) (rconcat_map p l).
Proof.
  intros H. induction l as [|a l IH]; [reflexivity|]. cbn [map rconcat_map]. rewrite H, IH. destruct (p a) as [x| |]; cbn; try reflexivity;
  destruct (rconcat_map p l); cbn; try reflexivity. now rewrite map_app.
Qed.
Lemma rconcat_ext {A B} (p q : A -> res (list B)) l : (forall a, p a = q a) -> rconcat_map p l = rconcat_map q l.
Proof. intros H. induction l as [|a l IH]; [reflexivity|]. cbn. now rewrite H, IH. Qed.

(** ** one event *)
Definition re_mut (n : naming) (m : mut) : mut := let '(e, x, r) := m in (re_event n e, map (re_note n) x, r).

Lemma mbind_re n m f h : (forall e, h (re_event n e) = re_mut n (f e)) -> mbind (re_mut n m) h = re_mut n (mbind m f).
Proof.
  intros H. destruct m as [[e x] [u|x'|]]; cbn [re_mut mbind]; [|reflexivity..]. rewrite H. destruct (f e) as [[e2 x2] r2]. cbn [re_mut].
  now rewrite map_app.
Qed.
Lemma with_state_re n e d : with_state (re_event n e) (keyed (who n) d) = re_event n (with_state e d).
Proof. reflexivity. Qed.
Lemma with_role_re n e d : with_role (re_event n e) (keyed (who n) d) = re_event n (with_role e d).
Proof. reflexivity. Qed.
Lemma get_status_re n e a : inj (who n) -> get_status (re_event n e) (re_att n a) = get_status e a.
Proof. intros J. destruct a as [i|]; [|reflexivity]. unfold get_status. cbn. now rewrite dget_keyed. Qed.
Lemma get_role_re n e a : inj (who n) -> get_role (re_event n e) (re_att n a) = get_role e a.
Proof. intros J. destruct a as [i|]; [|reflexivity]. unfold get_role. cbn. now rewrite dget_keyed. Qed.
Lemma has_attendee_re n e a : inj (who n) -> has_attendee (re_event n e) (re_att n a) = has_attendee e a.
Proof. intros J. unfold has_attendee. now rewrite get_status_re. Qed.

Lemma set_status_raw_re n e a st : inj (who n) -> set_status_raw (re_event n e) (re_att n a) st = re_mut n (set_status_raw e a st).
Proof.
  intros J. destruct a as [i|]; [|reflexivity]. unfold set_status_raw. cbn [re_att option_map attendee_id]. destruct st as [s|].
  - cbn [re_event e_state]. now rewrite dset_keyed.
  - change (e_state (re_event n e)) with (keyed (who n) (e_state e)). rewrite ddel_keyed by exact J.
    destruct (ddel (e_state e) i) as [d| |]; cbn [returned]; [|reflexivity..]. rewrite with_state_re. cbv zeta.
    change (e_role (re_event n (with_state e d))) with (keyed (who n) (e_role (with_state e d))). rewrite ddel_keyed by exact J.
    destruct (ddel (e_role (with_state e d)) i); reflexivity.
Qed.
Lemma set_status_re n e a st : inj (who n) -> set_status (re_event n e) (re_att n a) st = re_mut n (set_status e a st).
Proof.
  intros J. unfold set_status. destruct (match st with None => true | Some s => str_in s statuses end); [|reflexivity].
  rewrite get_status_re by exact J. destruct (get_status e a) as [old| |]; [|reflexivity..]. destruct (opt_str_eqb old st); [reflexivity|].
  rewrite set_status_raw_re by exact J. apply mbind_re. intros e'. now destruct a.
Qed.
Lemma set_role_re n e a ro : inj (who n) -> set_role (re_event n e) (re_att n a) ro = re_mut n (set_role e a ro).
Proof.
  intros J. unfold set_role. destruct (str_in ro roles); [|reflexivity]. destruct a as [i|]; [|reflexivity]. cbn [re_att option_map attendee_id].
  change (e_role (re_event n e)) with (keyed (who n) (e_role e)). now rewrite dset_keyed.
Qed.
Lemma invite_re n l : inj (who n) -> forall e, invite (re_event n e) (map (re_att n) l) = re_mut n (invite e l).
Proof.
  intros J. induction l as [|a l IH]; intros e; [reflexivity|]. cbn [map invite]. rewrite get_status_re by exact J.
  destruct (get_status e a) as [[s|]| |]; [apply IH| |reflexivity..]. rewrite set_status_re by exact J.
  rewrite (mbind_re n _ (fun e1 => set_role e1 a "REQ-PARTICIPANT") _) by (intros; now apply set_role_re). now apply mbind_re.
Qed.
Lemma set_attendees_re n l : inj (who n) -> forall e,
  set_attendees (re_event n e) (map (fun a => (re_att n (fst (fst a)), snd (fst a), snd a)) l) = re_mut n (set_attendees e l).
Proof.
  intros J. induction l as [|[[a ro] st] l IH]; intros e; [reflexivity|]. cbn [map set_attendees fst snd]. rewrite set_role_re by exact J.
  rewrite (mbind_re n _ (fun e1 => set_status_raw e1 a st) _) by (intros; now apply set_status_raw_re). now apply mbind_re.
Qed.
Lemma set_attrs_re n sp e : set_attrs (re_spec n sp) (re_event n e) = re_event n (set_attrs sp e).
Proof. reflexivity. Qed.
Lemma set_on_object_re n sp e : inj (who n) -> set_on_object (re_spec n sp) (re_event n e) = re_mut n (set_on_object sp e).
Proof.
  intros J. unfold set_on_object. rewrite set_attrs_re. cbn [re_spec s_organizer s_attendees]. destruct (s_organizer sp) as [i|]; cbn [re_att option_map].
  - change (Some (who n i)) with (re_att n (Some i)). rewrite set_status_raw_re by exact J.
    rewrite (mbind_re n _ (fun e1 => set_role e1 (Some i) "REQ-PARTICIPANT") _) by (intros; now apply set_role_re).
    rewrite (mbind_re n _ (fun e2 => (with_organizer e2 (Some i), [], Ok tt)) _) by reflexivity. apply mbind_re. intros e'. now apply set_attendees_re.
  - apply (mbind_re n (with_organizer (set_attrs sp e) None, [], Ok tt)). intros e'. now apply set_attendees_re.
Qed.
Lemma allday_adjust_re n e : allday_adjust (re_event n e) = re_event n (allday_adjust e).
Proof. unfold allday_adjust. cbn [re_event e_duration e_dtstart]. now destruct (e_duration e). Qed.
Lemma new_event_re n u sp : inj (who n) -> new_event (ev n u) (re_spec n sp) = returned (re_event n) (new_event u sp).
Proof.
  intros J. unfold new_event. change (blank (ev n u)) with (re_event n (blank u)). rewrite set_on_object_re by exact J.
  destruct (set_on_object sp (blank u)) as [[e x] [v|x'|]]; cbn [re_mut returned]; [|reflexivity..].
  change (e_allday (re_event n e)) with (e_allday e). destruct (e_allday e); [now rewrite allday_adjust_re|reflexivity].
Qed.
Lemma attendees_differ_re n e l : inj (who n) ->
  attendees_differ (re_event n e) (map (fun a => (re_att n (fst (fst a)), snd (fst a), snd a)) l) = attendees_differ e l.
Proof.
  intros J. induction l as [|[[a ro] st] l IH]; [reflexivity|]. cbn [map attendees_differ fst snd].
  rewrite get_status_re, get_role_re, IH by exact J. reflexivity.
Qed.
Lemma will_modify_re n sp e : inj (who n) -> will_modify (re_spec n sp) (re_event n e) = will_modify sp e.
Proof.
  intros J. unfold will_modify. change (attrs_differ (re_spec n sp) (re_event n e)) with (attrs_differ sp e). destruct (attrs_differ sp e); [reflexivity|].
  cbn [re_spec s_organizer s_attendees]. rewrite get_status_re, get_role_re, attendees_differ_re by exact J.
  replace (match re_att n (s_organizer sp) with Some i => negb (opt_str_eqb (e_organizer (re_event n e)) (Some i)) | None => false end)
    with (match s_organizer sp with Some i => negb (opt_str_eqb (e_organizer e) (Some i)) | None => false end); [reflexivity|].
  destruct (s_organizer sp) as [i|]; [|reflexivity]. cbn [re_att option_map re_event e_organizer]. f_equal.
  symmetry. exact (opt_eqb_inj (who n) (e_organizer e) (Some i) J).
Qed.
Lemma get_attendee_ids_re n e st ro : inj (who n) -> get_attendee_ids (re_event n e) st ro = returned (map (who n)) (get_attendee_ids e st ro).
Proof.
  intros J. unfold get_attendee_ids. cbn [re_event e_state e_role]. unfold keyed at 2.
  rewrite rfilter_map with (p := fun kv : string * string =>
    if match st with Some s => negb (String.eqb s (snd kv)) | None => false end then Ok false
    else match ro with None => Ok true | Some ro => match dget (e_role e) (fst kv) with Some ro' => Ok (String.eqb ro ro') | None => Raise KeyError end end).
  - rewrite bind_returned, returned_bind. apply bind_ext. intros l. cbn [returned]. now rewrite !map_map.
  - intros kv. cbn [fst snd]. now rewrite dget_keyed.
Qed.

(** ** queries *)
Lemma match_attendees_re n c e l : inj (who n) -> match_attendees (re_crit n c) (re_event n e) (map (re_att n) l) = match_attendees c e l.
Proof.
  intros J. induction l as [|a l IH]; [reflexivity|]. cbn [map match_attendees]. rewrite has_attendee_re, get_status_re, get_role_re, IH by exact J. reflexivity.
Qed.
Lemma match_criteria_re n c e : inj (who n) -> match_criteria (re_crit n c) (re_event n e) = match_criteria c e.
Proof.
  intros J. unfold match_criteria. cbn [re_crit c_categories c_organizer c_attendees].
  change (in_category (re_event n e)) with (in_category e). destruct (match c_categories c with Some cats => _ | None => false end); [reflexivity|].
  replace (match option_map (re_att n) (c_organizer c) with
           | Some o => let* i := attendee_id o in Ok (negb (opt_str_eqb (get_organizer_id (re_event n e)) (Some i))) | None => Ok false end)
    with (match c_organizer c with Some o => let* i := attendee_id o in Ok (negb (opt_str_eqb (get_organizer_id e) (Some i))) | None => Ok false end).
  - apply bind_ext. intros b. destruct b; [reflexivity|]. destruct (c_attendees c); [|reflexivity]. now apply match_attendees_re.
  - destruct (c_organizer c) as [[i|]|]; cbn; [|reflexivity..]. do 2 f_equal. symmetry. exact (opt_eqb_inj (who n) (e_organizer e) (Some i) J).
Qed.
Lemma null_re n : re_crit n null_criteria = null_criteria.
Proof. reflexivity. Qed.
Lemma matching_re n evs c : inj (who n) -> matching_events (map (re_event n) evs) (option_map (re_crit n) c) = returned (map (re_event n)) (matching_events evs c).
Proof.
  intros J. unfold matching_events. apply rfilter_map. intros e. destruct c; cbn [option_map]; [now apply match_criteria_re|].
  rewrite <- (null_re n) at 1. now apply match_criteria_re.
Qed.
Lemma get_events_re n evs p c : inj (who n) -> get_events (map (re_event n) evs) p (option_map (re_crit n) c) = returned (map (re_event n)) (get_events evs p c).
Proof.
  intros J. unfold get_events. rewrite matching_re by exact J. rewrite bind_returned, returned_bind. apply bind_ext. intros l. now apply rfilter_map.
Qed.
Lemma expand_re n F e p : expand F (re_event n e) p = returned (map (re_occ n)) (expand F e p).
Proof.
  unfold expand. change (e_recurrence (re_event n e)) with (e_recurrence e). change (e_dtstart (re_event n e)) with (e_dtstart e).
  change (e_duration (re_event n e)) with (e_duration e). destruct (e_recurrence e) as [r|].
  - destruct (snd p) as [pe|]; [|reflexivity]. destruct (apply F r (e_dtstart e) _) as [l f].
    replace (expand_dates (re_event n e) p l) with (returned (map (re_occ n)) (expand_dates e p l)).
    + rewrite bind_returned, returned_bind. apply bind_ext. intros out. now destruct f.
    + symmetry. unfold expand_dates. rewrite <- (map_id l) at 1. apply rconcat_map_map. intros d. change (e_dtstart (re_event n e)) with (e_dtstart e).
      change (e_duration (re_event n e)) with (e_duration e). cbv zeta. destruct (in_period _ _ _) as [[]| |]; reflexivity.
  - destruct (in_period _ _ _) as [[]| |]; reflexivity.
Qed.
Lemma get_occurrences_re n F evs p c : inj (who n) ->
  get_occurrences F (map (re_event n) evs) p (option_map (re_crit n) c) = returned (map (re_occ n)) (get_occurrences F evs p c).
Proof.
  intros J. unfold get_occurrences. rewrite returned_bind. apply bind_ext. intros _. rewrite matching_re by exact J.
  rewrite bind_returned, returned_bind. apply bind_ext. intros l. apply rconcat_map_map. intros e. apply expand_re.
Qed.
Lemma emit_re n e p : forall l en, emit_segments (re_event n e) p en l = returned (map (re_occ n)) (emit_segments e p en l).
Proof.
  induction l as [|s l IH]; intros en; [reflexivity|]. cbn [emit_segments]. rewrite IH, returned_bind. apply bind_ext. intros b.
  rewrite bind_returned, returned_bind. apply bind_ext. intros r. now destruct b.
Qed.
Lemma segment_re n b l : segment_occurrences b (map (re_occ n) l) = returned (map (re_occ n)) (segment_occurrences b l).
Proof.
  unfold segment_occurrences. apply rconcat_map_map. intros o. unfold segment_one. change (o_dtstart (re_occ n o)) with (o_dtstart o).
  change (o_duration (re_occ n o)) with (o_duration o). cbv zeta. rewrite returned_bind. apply bind_ext. intros y. rewrite returned_bind. apply bind_ext. intros bs.
  apply emit_re.
Qed.
Lemma segmented_re n F evs p c : inj (who n) ->
  get_occurrences_segmented F (map (re_event n) evs) p (option_map (re_crit n) c) = returned (map (re_occ n)) (get_occurrences_segmented F evs p c).
Proof.
  intros J. unfold get_occurrences_segmented. rewrite get_occurrences_re by exact J. rewrite bind_returned, returned_bind. apply bind_ext. intros l.
  rewrite returned_bind. apply bind_ext. intros b. apply segment_re.
Qed.
Lemma blocked_of_re n a b e tb te o : inj (who n) -> blocked_of (re_att n a) b e tb te (re_occ n o) = blocked_of a b e tb te o.
Proof.
  intros J. unfold blocked_of. change (o_dtstart (re_occ n o)) with (o_dtstart o). change (o_duration (re_occ n o)) with (o_duration o).
  change (o_original (re_occ n o)) with (re_event n (o_original o)). unfold blocks.
  change (e_transparent (re_event n (o_original o))) with (e_transparent (o_original o)).
  change (e_status (re_event n (o_original o))) with (e_status (o_original o)). now rewrite get_status_re.
Qed.
Lemma rconcat_map_same {A B C} (f : A -> B) (p : A -> res (list C)) q l : (forall a, q (f a) = p a) -> rconcat_map q (map f l) = rconcat_map p l.
Proof. intros H. induction l as [|a l IH]; [reflexivity|]. cbn. now rewrite H, IH. Qed.
Lemma get_blocked_re n F evs atts b e tb te : inj (who n) ->
  get_blocked F (map (re_event n) evs) (map (re_att n) atts) b e tb te = get_blocked F evs atts b e tb te.
Proof.
  intros J. unfold get_blocked. erewrite rconcat_map_same; [reflexivity|]. intros a. cbv beta.
  change (Some (mk_criteria (AMany [re_att n a]) None None None None)) with (option_map (re_crit n) (Some (mk_criteria (AMany [a]) None None None None))).
  rewrite segmented_re by exact J. rewrite bind_returned. apply bind_ext. intros l. apply rconcat_map_same. intros o. now apply blocked_of_re.
Qed.
Lemma get_free_re n F evs atts b e tb te m : inj (who n) ->
  get_free F (map (re_event n) evs) (map (re_att n) atts) b e tb te m = get_free F evs atts b e tb te m.
Proof. intros J. unfold get_free. now rewrite get_blocked_re. Qed.
Lemma restrict_re n c l : restrict_attendees (option_map (re_crit n) c) (map (re_att n) l) = re_crit n (restrict_attendees c l).
Proof.
  destruct c as [c|]; [|reflexivity]. cbn [restrict_attendees option_map]. unfold clone, re_crit. cbn. f_equal.
  - now destruct (c_attendees c) as [[|x y]|].
  - now destruct (c_organizer c).
Qed.

(** ** the system *)
Definition re_smut {A B} (n : naming) (f : A -> B) (m : smut A) : smut B := let '(s, x, r) := m in (re_sys n s, map (re_note n) x, returned f r).

Lemma sbind_re {A B C D} n (f : A -> B) (h : C -> D) m k q : (forall s a, q (re_sys n s) (f a) = re_smut n h (k s a)) ->
  sbind (re_smut n f m) q = re_smut n h (sbind m k).
Proof.
  intros H. destruct m as [[s x] [a|x'|]]; cbn [re_smut returned sbind]; [|reflexivity..]. rewrite H. destruct (k s a) as [[s2 x2] r2]. cbn [re_smut].
  now rewrite map_app.
Qed.
Lemma obj_re n s r : ev n "" = ""%string -> obj (re_sys n s) r = re_event n (obj s r).
Proof.
  intros Z. unfold obj. cbn [re_sys sys_heap]. replace (blank "") with (re_event n (blank "")) at 1; [apply map_nth|].
  unfold re_event, blank. cbn. now rewrite Z.
Qed.
Lemma stored_re n s : ev n "" = ""%string -> stored (re_sys n s) = map (re_event n) (stored s).
Proof.
  intros Z. unfold stored. cbn [re_sys sys_store]. unfold keyed. rewrite !map_map. apply map_ext. intros kv. cbn [snd]. now apply obj_re.
Qed.
Lemma get_event_re n s u : inj (ev n) -> get_event (re_sys n s) (ev n u) = get_event s u.
Proof. intros J. unfold get_event. cbn [re_sys sys_store]. now rewrite dget_keyed. Qed.
Lemma replace_nth_map {A B} (f : A -> B) l : forall k x, replace_nth k (map f l) (f x) = map f (replace_nth k l x).
Proof. induction l as [|y l IH]; intros [|k] x; try reflexivity. cbn. now rewrite IH. Qed.
Lemma on_event_re n s r f h : ev n "" = ""%string -> (forall e, h (re_event n e) = re_mut n (f e)) ->
  on_event (re_sys n s) r h = re_smut n (fun u => u) (on_event s r f).
Proof.
  intros Z H. unfold on_event. rewrite obj_re by exact Z. rewrite H. destruct (f (obj s r)) as [[e x] y]. cbn [re_mut re_smut].
  unfold with_heap, re_sys. cbn [sys_heap sys_store sys_source sys_cals]. rewrite replace_nth_map. destruct y as [[]| |]; reflexivity.
Qed.
Lemma create_re cf n s u sp now : faithful cf n ->
  create_event cf (re_sys n s) (option_map (ev n) u) (re_spec n sp) now = re_smut n (fun r => r) (create_event cf s u sp now).
Proof.
  intros (J1 & J2 & _ & G). unfold create_event.
  replace (match option_map (ev n) u with Some u => u | None => generated_id cf now (List.length (sys_store (re_sys n s))) end)
    with (ev n (match u with Some u => u | None => generated_id cf now (List.length (sys_store s)) end)).
  2:{ destruct u; [reflexivity|]. cbn [option_map re_sys sys_store]. unfold keyed. rewrite map_length. apply G. }
  set (v := match u with Some u => u | None => _ end). rewrite new_event_re by exact J2. destruct (new_event v sp) as [e|x|]; cbn [returned]; [|reflexivity..].
  cbn [re_smut returned map re_note]. unfold re_sys. cbn [sys_heap sys_store sys_source sys_cals]. rewrite map_length, map_app, dset_keyed by exact J1. reflexivity.
Qed.
Lemma delete_re cf n s r : faithful cf n -> delete_event (re_sys n s) r = re_smut n (fun u => u) (delete_event s r).
Proof.
  intros (J1 & _ & Z & _). unfold delete_event. rewrite obj_re by exact Z. cbn [re_event e_uid re_sys sys_store]. rewrite ddel_keyed by exact J1.
  destruct (ddel (sys_store s) (e_uid (obj s r))); reflexivity.
Qed.
Lemma cal_re n s c : cal (re_sys n s) c = keyed (who n) (cal s c).
Proof. unfold cal. cbn [re_sys sys_cals]. change [] with (keyed (V:=unit) (who n) []) at 1. apply map_nth. Qed.
Lemma source_get_re n s i : inj (who n) -> source_get (re_sys n s) (who n i) = returned (re_att n) (source_get s i).
Proof. intros J. unfold source_get. cbn [re_sys sys_source]. rewrite dget_keyed by exact J. now destruct (dget (sys_source s) i). Qed.
Lemma source_knows_re n s i : inj (who n) -> source_knows (re_sys n s) (who n i) = source_knows s i.
Proof. intros J. unfold source_knows. cbn [re_sys sys_source]. now rewrite dget_keyed by exact J. Qed.
Lemma cal_attendees_re n s c : inj (who n) -> cal_attendees (re_sys n s) c = returned (map (re_att n)) (cal_attendees s c).
Proof. intros J. unfold cal_attendees. rewrite cal_re, dkeys_keyed. apply rmap_map. intros i. now apply source_get_re. Qed.
Lemma main_attendee_re n s c : inj (who n) -> main_attendee (re_sys n s) c = returned (re_att n) (main_attendee s c).
Proof. intros J. unfold main_attendee. rewrite cal_re, dkeys_keyed. destruct (dkeys (cal s c)); [reflexivity|]. now apply source_get_re. Qed.
Lemma cal_events_re n s c p cr : inj (who n) -> ev n "" = ""%string ->
  cal_events (re_sys n s) c p (option_map (re_crit n) cr) = returned (map (re_event n)) (cal_events s c p cr).
Proof.
  intros J Z. unfold cal_events. rewrite cal_attendees_re by exact J. rewrite bind_returned, returned_bind. apply bind_ext. intros l.
  unfold calendar_events. rewrite restrict_re, stored_re by exact Z.
  exact (get_events_re n (stored s) p (Some (restrict_attendees cr l)) J).
Qed.
Lemma import_spec_re n tz s c v : inj (who n) ->
  import_spec tz (source_knows (re_sys n s)) (main_attendee (re_sys n s) c) (re_vevent n v) = returned (re_spec n) (import_spec tz (source_knows s) (main_attendee s c) v).
Proof.
  intros J. unfold import_spec. change (dtstart_duration tz (re_vevent n v)) with (dtstart_duration tz v). rewrite returned_bind. apply bind_ext.
  intros [[t d] ad]. change (v_rrule (re_vevent n v)) with (v_rrule v). rewrite main_attendee_re by exact J. cbv beta zeta.
  set (f := fun i => if source_knows s i then Some i else None).
  assert (Q : forall i, (if source_knows (re_sys n s) (who n i) then Some (who n i) else None) = re_att n (f i)).
  { intros i. rewrite source_knows_re by exact J. unfold f. now destruct (source_knows s i). }
  match goal with |- rbind ?m _ = _ => replace m with (returned (re_att n) (match match v_organizer v with Some i => f i | None => None end with Some i => Ok (Some i) | None => main_attendee s c end)) end.
  2:{ cbn [re_vevent v_organizer]. destruct (v_organizer v) as [i|]; [|reflexivity]. cbn [option_map]. rewrite Q. now destruct (f i). }
  rewrite bind_returned, returned_bind. apply bind_ext. intros o. rewrite returned_bind. apply bind_ext. intros r. cbn [returned]. f_equal.
  unfold re_spec. cbn. f_equal. rewrite !map_map. apply map_ext. intros [[i st] ro]. cbn [fst snd]. now rewrite Q.
Qed.
Lemma slift_re {A B} n s (f : A -> B) r : slift (re_sys n s) (returned f r) = re_smut n f (slift s r).
Proof. reflexivity. Qed.

Lemma import_existing_re cf n s c u v : faithful cf n ->
  import_existing cf (re_sys n s) c (ev n u) (re_vevent n v) = re_smut n (fun u => u) (import_existing cf s c u v).
Proof.
  intros (J1 & J2 & Z & _). unfold import_existing. rewrite get_event_re by exact J1. rewrite <- (returned_id (fun r : nat => r) (get_event s u)) at 1 by reflexivity.
  rewrite slift_re. apply sbind_re. intros s1 r. rewrite import_spec_re by exact J2. rewrite slift_re. apply sbind_re. intros s2 sp.
  rewrite obj_re by exact Z. rewrite will_modify_re by exact J2. rewrite <- (returned_id (fun r : bool => r) (will_modify sp (obj s2 r))) at 1 by reflexivity.
  rewrite slift_re. apply sbind_re. intros s3 [].
  - rewrite (on_event_re n s3 r (set_on_object sp)) by (auto; intros; now apply set_on_object_re).
    apply sbind_re. intros s4 _. rewrite obj_re by exact Z. reflexivity.
  - reflexivity.
Qed.
Lemma import_new_re cf n s c u v : faithful cf n ->
  import_new cf (re_sys n s) c (ev n u) (re_vevent n v) = re_smut n (fun u => u) (import_new cf s c u v).
Proof.
  intros Fa. pose proof Fa as (J1 & J2 & Z & G). unfold import_new. rewrite import_spec_re by exact J2. rewrite slift_re. apply sbind_re. intros s2 sp.
  change (Some (ev n u)) with (option_map (ev n) (Some u)). rewrite (create_re cf n s2 (Some u) sp 0 Fa). apply sbind_re. reflexivity.
Qed.
Lemma has_event_re n s u : inj (ev n) -> has_event (re_sys n s) (ev n u) = has_event s u.
Proof. intros J. unfold has_event. now rewrite get_event_re. Qed.
Lemma import_one_re cf n s c known v : faithful cf n ->
  import_one cf (re_sys n s) c (map (ev n) known) (re_vevent n v) = re_smut n (ev n) (import_one cf s c known v).
Proof.
  intros Fa. pose proof Fa as (J1 & _). unfold import_one. cbn [re_vevent v_uid]. destruct (v_uid v) as [u|]; cbn [option_map]; [|reflexivity].
  rewrite str_in_inj, has_event_re by exact J1. destruct (str_in u known); [|destruct (has_event s u)].
  - rewrite import_existing_re by exact Fa. now apply sbind_re.
  - reflexivity.
  - rewrite import_new_re by exact Fa. now apply sbind_re.
Qed.
Lemma import_loop_re cf n c known l : faithful cf n -> forall s,
  import_loop cf (re_sys n s) c (map (ev n) known) (map (re_vevent n) l) = re_smut n (map (ev n)) (import_loop cf s c known l).
Proof.
  intros Fa. induction l as [|v l IH]; intros s; [reflexivity|]. cbn [map import_loop]. rewrite import_one_re by exact Fa. apply sbind_re. intros s1 u.
  rewrite IH. now apply sbind_re.
Qed.
Lemma delete_loop_re cf n l : faithful cf n -> forall s, delete_loop (re_sys n s) (map (ev n) l) = re_smut n (fun u => u) (delete_loop s l).
Proof.
  intros Fa. pose proof Fa as (J1 & _). induction l as [|u l IH]; intros s; [reflexivity|]. cbn [map delete_loop]. rewrite get_event_re by exact J1.
  rewrite <- (returned_id (fun r : nat => r) (get_event s u)) at 1 by reflexivity. rewrite slift_re. apply sbind_re. intros s1 r.
  rewrite (delete_re cf) by exact Fa. apply sbind_re. intros s2 _. apply IH.
Qed.
Lemma nodup_map f l : inj f -> nodup string_dec (map f l) = map f (nodup string_dec l).
Proof.
  intros J. induction l as [|x l IH]; [reflexivity|]. cbn [map nodup]. rewrite IH.
  destruct (in_dec string_dec (f x) (map f l)) as [I|I], (in_dec string_dec x l) as [I'|I']; try reflexivity.
  - apply in_map_iff in I as (y & E & Y). apply J in E as ->. contradiction.
  - exfalso. apply I. now apply in_map.
Qed.
Lemma filter_map_same f p q (l : list string) : (forall x : string, q (f x : string) = p x) -> filter q (map f l) = map f (filter p l).
Proof. intros H. induction l as [|x l IH]; [reflexivity|]. cbn [map filter]. rewrite H, IH. now destruct (p x). Qed.
Lemma import_re cf n s c parsed p cr sync : faithful cf n ->
  import_cal cf (re_sys n s) c (returned (option_map (map (re_vevent n))) parsed) p (option_map (re_crit n) cr) sync
  = re_smut n (fun u => u) (import_cal cf s c parsed p cr sync).
Proof.
  intros Fa. pose proof Fa as (J1 & J2 & Z & _). unfold import_cal. rewrite cal_events_re by assumption. rewrite slift_re. apply sbind_re. intros s1 evs. cbv zeta.
  replace (map e_uid (map (re_event n) evs)) with (map (ev n) (map e_uid evs)) by (rewrite !map_map; reflexivity). rewrite nodup_map by exact J1.
  rewrite slift_re. apply sbind_re. intros s2 [vs|]; cbn [option_map]; [|reflexivity]. rewrite import_loop_re by exact Fa. apply sbind_re. intros s3 ical.
  destruct sync; [|reflexivity]. rewrite (filter_map_same _ (fun u => negb (str_in u ical))) by (intros; now rewrite str_in_inj). now apply (delete_loop_re cf).
Qed.
Lemma drop_re {A B} n (f : A -> B) m : drop (re_smut n f m) = re_smut n (fun u => u) (drop m).
Proof. destruct m as [[s x] [a|x'|]]; reflexivity. Qed.
Lemma with_org_re n sp i : with_spec_organizer (re_spec n sp) (who n i) = re_spec n (with_spec_organizer sp i).
Proof. reflexivity. Qed.
Lemma keyed_cals n (l : list (dict unit)) k d : replace_nth k (map (keyed (who n)) l) (keyed (who n) d) = map (keyed (who n)) (replace_nth k l d).
Proof. apply replace_nth_map. Qed.

(** ** The theorems *)
(** A call on the renamed system with renamed arguments does, announces and ends
    as the renamed call. *)
Theorem C158_call : forall cf n s o, faithful cf n ->
  let m := step cf s o in let m' := step cf (re_sys n s) (re_op n o) in
  sst m' = re_sys n (sst m) /\ snt m' = map (re_note n) (snt m) /\ srs m' = srs m.
Proof.
  intros cf n s o Fa. cbv zeta. pose proof Fa as (J1 & J2 & Z & G).
  assert (X : step cf (re_sys n s) (re_op n o) = re_smut n (fun u => u) (step cf s o)).
  { destruct o; cbn [re_op step].
    - rewrite create_re by exact Fa. apply drop_re.
    - rewrite with_org_re. change (@None string) with (option_map (ev n) None) at 1. rewrite (create_re cf n s None _ now Fa). apply drop_re.
    - now apply (delete_re cf).
    - apply on_event_re; [exact Z|]. intros e. now apply invite_re.
    - apply on_event_re; [exact Z|]. intros e. now apply set_status_re.
    - apply on_event_re; [exact Z|]. intros e. now apply set_role_re.
    - apply on_event_re; [exact Z|]. intros e. now rewrite allday_adjust_re.
    - apply on_event_re; [exact Z|]. reflexivity.
    - apply on_event_re; [exact Z|]. intros e. now apply set_on_object_re.
    - unfold create_attendee, sret. cbn [re_smut returned map]. unfold re_sys, with_source. cbn [sys_source sys_heap sys_store sys_cals]. now rewrite dset_keyed.
    - unfold sret. cbn [re_smut returned map]. unfold re_sys, with_cals. cbn [sys_source sys_heap sys_store sys_cals]. now rewrite map_app.
    - destruct a as [i|]; [|reflexivity]. unfold add_attendee, sret. cbn [re_att option_map attendee_id re_smut returned map]. rewrite cal_re, dset_keyed by exact J2.
      unfold re_sys, with_cals. cbn [sys_source sys_heap sys_store sys_cals]. now rewrite keyed_cals.
    - destruct a as [i|]; [|reflexivity]. unfold remove_attendee, sret. cbn [re_att option_map attendee_id rbind]. rewrite cal_re, ddel_keyed by exact J2.
      destruct (ddel (cal s c) i) as [d| |]; cbn [returned re_smut map]; [|reflexivity..].
      unfold re_sys, with_cals. cbn [sys_source sys_heap sys_store sys_cals]. now rewrite keyed_cals.
    - now apply import_re. }
  rewrite X. destruct (step cf s o) as [[s' x] [u|e|]]; auto.
Qed.
Print Assumptions C158_call.

(** So whatever can happen can happen under other names. *)
Theorem C158_history : forall cf n s h, faithful cf n -> history cf s h ->
  history cf (re_sys n s) (map (fun c => (re_op n (fst (fst c)), map (re_note n) (snd (fst c)), snd c)) h).
Proof.
  intros cf n s h Fa H. induction H as [|s h o s' x r H IH E]; [exact (history_init cf)|]. rewrite map_app. cbn [map fst snd].
  econstructor; [exact IH|]. destruct (C158_call cf n s o Fa) as (A & B & C). rewrite E in A, B, C. unfold sst, snt, srs in A, B, C. cbn [fst snd] in A, B, C.
  destruct (step cf (re_sys n s) (re_op n o)) as [[s2 x2] r2]. cbn [fst snd] in A, B, C. now rewrite A, B, C.
Qed.
Print Assumptions C158_history.

(** Questions about the renamed system get the renamed answers, in the same
    order; those that say nothing of ids get the very same answers. *)
Theorem C158_queries : forall cf n s, faithful cf n -> let t := re_sys n s in
  (* one event *)
  (forall u, get_event t (ev n u) = get_event s u)
  /\ (forall r, obj t r = re_event n (obj s r))
  /\ (forall r a, get_status (obj t r) (re_att n a) = get_status (obj s r) a /\ get_role (obj t r) (re_att n a) = get_role (obj s r) a)
  /\ (forall r st ro, get_attendee_ids (obj t r) st ro = returned (map (who n)) (get_attendee_ids (obj s r) st ro))
  /\ (forall r r', event_cmp (obj t r) (obj t r') = event_cmp (obj s r) (obj s r'))
  /\ (forall r sp, will_modify (re_spec n sp) (obj t r) = will_modify sp (obj s r))
  /\ (forall r private, export_event private (obj t r) = returned (re_vevent n) (export_event private (obj s r)))
  (* the storage *)
  /\ (forall p c, get_events (stored t) p (option_map (re_crit n) c) = returned (map (re_event n)) (get_events (stored s) p c))
  /\ (forall F p c, get_occurrences F (stored t) p (option_map (re_crit n) c) = returned (map (re_occ n)) (get_occurrences F (stored s) p c))
  /\ (forall F p c, get_occurrences_segmented F (stored t) p (option_map (re_crit n) c)
        = returned (map (re_occ n)) (get_occurrences_segmented F (stored s) p c))
  /\ (forall F l b e tb te, get_blocked F (stored t) (map (re_att n) l) b e tb te = get_blocked F (stored s) l b e tb te)
  /\ (forall F l b e tb te m, get_free F (stored t) (map (re_att n) l) b e tb te m = get_free F (stored s) l b e tb te m)
  (* calendars *)
  /\ (forall c, cal_attendees t c = returned (map (re_att n)) (cal_attendees s c))
  /\ (forall c, main_attendee t c = returned (re_att n) (main_attendee s c))
  /\ (forall c p cr, cal_events t c p (option_map (re_crit n) cr) = returned (map (re_event n)) (cal_events s c p cr))
  /\ (forall F l p cr, calendar_segmented F (stored t) (map (re_att n) l) p (option_map (re_crit n) cr)
        = returned (map (re_occ n)) (calendar_segmented F (stored s) l p cr))
  /\ (forall c p cr, export_cal t c p (option_map (re_crit n) cr) = returned (map (re_vevent n)) (export_cal s c p cr)).
Proof.
  intros cf n s (J1 & J2 & Z & _) t. subst t.
  assert (X : forall p e, export_event p (re_event n e) = returned (re_vevent n) (export_event p e)).
  { intros p e. unfold export_event. change (e_dtstart (re_event n e)) with (e_dtstart e). change (e_duration (re_event n e)) with (e_duration e).
    destruct (end_of (e_dtstart e) (e_duration e)) as [y| |]; cbn [rbind returned]; [|reflexivity..]. destruct p; reflexivity. }
  rewrite (stored_re n s Z).
  split; [intros u; now apply get_event_re|]. split; [intros r; now apply obj_re|].
  split; [intros r a; rewrite obj_re by exact Z; split; [now apply get_status_re|now apply get_role_re]|].
  split; [intros r st ro; rewrite obj_re by exact Z; now apply get_attendee_ids_re|].
  split.
  { intros r r'. rewrite !obj_re by exact Z. unfold event_cmp, cmp_pair. cbn [fst snd re_event e_dtstart e_uid].
    assert (R : forall x, String.compare x x = Eq) by (intros x; pose proof (String.compare_antisym x x) as Q; now destruct (String.compare x x)).
    now rewrite !R. }
  split; [intros r sp; rewrite obj_re by exact Z; now apply will_modify_re|].
  split; [intros r p; rewrite obj_re by exact Z; apply X|].
  split; [intros p c; now apply get_events_re|]. split; [intros F p c; now apply get_occurrences_re|]. split; [intros F p c; now apply segmented_re|].
  split; [intros F l b e tb te; now apply get_blocked_re|]. split; [intros F l b e tb te m; now apply get_free_re|].
  split; [intros c; now apply cal_attendees_re|]. split; [intros c; now apply main_attendee_re|]. split; [intros c p cr; now apply cal_events_re|].
  split.
  { intros F l p cr. unfold calendar_segmented. rewrite restrict_re. exact (segmented_re n F (stored s) p (Some (restrict_attendees cr l)) J2). }
  intros c p cr. unfold export_cal. rewrite cal_events_re by assumption. rewrite bind_returned, returned_bind. apply bind_ext. intros l.
  apply rmap_map. intros e. apply X.
Qed.
Print Assumptions C158_queries.

(** Ann and Bob, and two of the events, change names. *)
Definition swap (a b x : string) : string := if String.eqb x a then b else if String.eqb x b then a else x.
Definition swapped : naming := Naming (swap "a1" "b1") (swap "ann" "bob").

Lemma swap_inj a b : inj (swap a b).
Proof.
  intros x y. unfold swap. destruct (String.eqb_spec x a), (String.eqb_spec x b), (String.eqb_spec y a), (String.eqb_spec y b); congruence.
Qed.
Lemma swapped_faithful cf : faithful cf swapped.
Proof.
  split; [apply swap_inj|]. split; [apply swap_inj|]. split; [reflexivity|]. intros now k. cbn [ev swapped]. unfold swap.
  assert (L : (4 <= String.length (generated_id cf now k))%nat).
  { unfold generated_id, iso8601. destruct (ord2ymd (dt_date now)) as [[y m] d]. cbv zeta. rewrite !app_length_s, pad_length. lia. }
  destruct (String.eqb_spec (generated_id cf now k) "a1") as [E|_]; [rewrite E in L; cbn in L; lia|].
  destruct (String.eqb_spec (generated_id cf now k) "b1") as [E|_]; [rewrite E in L; cbn in L; lia|]. reflexivity.
Qed.

Example C158_case : let s := run cf0 office in let t := re_sys swapped s in
  faithful cf0 swapped /\ reachable cf0 s /\ t <> s
  /\ get_event s "a1" = Ok 0%nat /\ get_event t "b1" = Ok 0%nat /\ e_organizer (obj s 0) = Some "ann"%string /\ e_organizer (obj t 0) = Some "bob"%string
  /\ snt (step cf0 s (OSetStatus 0 ann (Some "DECLINED"%string))) = [NParticipation "a1" "ann" (Some "ACCEPTED") (Some "DECLINED")]%string
  /\ snt (step cf0 t (OSetStatus 0 bob (Some "DECLINED"%string))) = [NParticipation "b1" "bob" (Some "ACCEPTED") (Some "DECLINED")]%string.
Proof.
  split; [apply swapped_faithful|]. split; [apply run_reachable|]. split; [intros X; apply (f_equal sys_store) in X; vm_compute in X; discriminate|].
  vm_compute. auto 10.
Qed.
