(** Property theorems C174: exporting while the calendar changes (cal.py 517-572, 974-985). *)
From Verif Require Import Base PyDate DateFacts Recurrent CalTime TimeProofs Event Storage ICal System
  QueryProofs EventProofs SpecProofs SystemProofs StoreProofs IdProofs ImportProofs PropEvent PropSystem PropQuery PropNarrow PropICal PropErrors PropCause PropExport
  PropThreads Reads PropReads ExportRun.
Local Opaque ord2ymd year_of month_of day_of ymd2ord days_in_month is_leap.

(** ** specification *)
(** at one of the reads *)
Definition sometime (w : site -> system) (P : system -> Prop) : Prop := exists k, P (w k).

(** the times written: whether it is all day, its start, its start again and its duration, each
    as it was at one moment *)
Definition times_of (w : site -> system) (r : nat) (v : vevent) : Prop :=
  exists a t d, sometime w (fun s => e_allday (obj s r) = a)
  /\ sometime w (fun s => written_time a (e_dtstart (obj s r)) (v_dtstart v))
  /\ sometime w (fun s => e_dtstart (obj s r) = t) /\ sometime w (fun s => e_duration (obj s r) = Some d)
  /\ (DAY <= t + d < (MAXORD + 1) * DAY) /\ written_time a (t + d) (v_dtend v).

(** a text written as it was at one moment; or it is empty, since it was taken away *)
Definition text_once (w : site -> system) (f : system -> string) (x : option string) : Prop :=
  sometime w (fun s => written_text (f s) x)
  \/ (x = Some ""%string /\ sometime w (fun s => f s <> ""%string) /\ sometime w (fun s => f s = ""%string)).

(** every piece of the component was true of the event at one moment *)
Definition pieces (private : bool) (w : site -> system) (r : nat) (v : vevent) : Prop :=
  sometime w (fun s => v_uid v = Some (e_uid (obj s r)))
  /\ sometime w (fun s => v_class v = Some (e_access (obj s r)))
  /\ sometime w (fun s => v_transp v = Some (if e_transparent (obj s r) then "TRANSPARENT" else "OPAQUE")%string)
  /\ times_of w r v
  /\ v_duration v = None /\ sometime w (fun s => written_rule (e_recurrence (obj s r)) (v_rrule v))
  /\ v_organizer v = None /\ v_attendees v = []
  /\ if private then hidden_details v
     else sometime w (fun s => v_summary v = Some (e_title (obj s r))) /\ sometime w (fun s => v_status v = Some (e_status (obj s r)))
       /\ text_once w (fun s => e_description (obj s r)) (v_description v) /\ text_once w (fun s => e_location (obj s r)) (v_location v)
       /\ sometime w (fun s => v_categories v = e_categories (obj s r))
       /\ sometime w (fun s => v_attach v = e_document (obj s r) \/ (v_attach v = None /\ e_document (obj s r) = Some ""%string)).

(** ** one event *)
Lemma again_text w f k k' : text_once w f (if_again (f (w k)) (f (w k'))).
Proof.
  destruct (f (w k)) as [|a x] eqn:E; cbn [if_again].
  - left. exists k. left. auto.
  - destruct (string_dec (f (w k')) "") as [N|N].
    + right. rewrite N. split; [reflexivity|]. split; [exists k; rewrite E; discriminate|now exists k'].
    + left. exists k'. right. auto.
Qed.

Lemma end_range t d x : end_of t d = Ok x -> exists n, d = Some n /\ x = t + n /\ DAY <= t + n < (MAXORD + 1) * DAY.
Proof.
  unfold end_of. destruct d as [n|]; [|discriminate]. unfold dt_add. destruct (dt_ok (t + n)) eqn:E; [|discriminate]. injection 1 as <-.
  exists n. split; [reflexivity|]. split; [reflexivity|]. unfold dt_ok in E. apply andb_true_iff in E. lia.
Qed.

Theorem C174_pieces private r w v : export_reads private r w = Ok v -> pieces private w r v.
Proof.
  unfold export_reads. intros H. destruct (end_of _ _) as [x| |] eqn:EE in H; try discriminate. cbn [rbind] in H.
  apply end_range in EE as (n & D & X & RG).
  assert (RR : exists rr, match e_recurrence (obj (w AtRule) r) with
             | None => Ok None
             | Some _ => match e_recurrence (obj (w AtRule2) r) with Some x => Ok (Some (export_rule x)) | None => Raise AttributeError end
             end = Ok rr /\ sometime w (fun s => written_rule (e_recurrence (obj s r)) rr)).
  { destruct (e_recurrence (obj (w AtRule) r)) as [q|] eqn:E1.
    - destruct (e_recurrence (obj (w AtRule2) r)) as [q'|] eqn:E2; [|discriminate]. eexists. split; [reflexivity|]. exists AtRule2. rewrite E2. apply (rule_written (Some q')).
    - eexists. split; [reflexivity|]. exists AtRule. rewrite E1. exact I. }
  destruct RR as (rr & E & RS). rewrite E in H. cbn [rbind] in H. injection H as <-. subst x.
  assert (TM : forall v, v_dtstart v = Some (if e_allday (obj (w AtAllday) r) then IDate (dt_date (e_dtstart (obj (w AtStart) r))) else IFloat (e_dtstart (obj (w AtStart) r))) ->
     v_dtend v = Some (if e_allday (obj (w AtAllday) r) then IDate (dt_date (e_dtstart (obj (w AtStart2) r) + n)) else IFloat (e_dtstart (obj (w AtStart2) r) + n)) -> times_of w r v).
  { intros v V1 V2. exists (e_allday (obj (w AtAllday) r)), (e_dtstart (obj (w AtStart2) r)), n. split; [now exists AtAllday|].
    split; [exists AtStart; rewrite V1; apply time_written|]. split; [now exists AtStart2|]. split; [now exists AtDuration|]. split; [exact RG|]. rewrite V2. apply time_written. }
  unfold pieces. destruct private; cbn [v_uid v_class v_transp v_duration v_rrule v_organizer v_attendees].
  - split; [now exists AtUid|]. split; [now exists AtAccess|]. split; [now exists AtTransparent|]. split; [now apply TM|]. split; [reflexivity|]. split; [exact RS|].
    split; [reflexivity|]. split; [reflexivity|]. repeat split.
  - split; [now exists AtUid|]. split; [now exists AtAccess|]. split; [now exists AtTransparent|]. split; [now apply TM|]. split; [reflexivity|]. split; [exact RS|].
    split; [reflexivity|]. split; [reflexivity|]. cbn [v_summary v_status v_description v_location v_categories v_attach].
    split; [now exists AtTitle|]. split; [now exists AtStatus|].
    split; [apply (again_text w (fun s => e_description (obj s r)))|]. split; [apply (again_text w (fun s => e_location (obj s r)))|]. split.
    + destruct (e_categories (obj (w AtCategories) r)) as [|c l] eqn:C; [now exists AtCategories|now exists AtCategories2].
    + destruct (e_document (obj (w AtDocument) r)) as [[|c d]|] eqn:C.
      * exists AtDocument. right. split; [reflexivity|exact C].
      * exists AtDocument2. now left.
      * exists AtDocument. left. now rewrite C.
Qed.
Print Assumptions C174_pieces.

(** ** when it raises *)
Theorem C174_raises private r w :
  (forall x, export_reads private r w = Raise x ->
     (exists t d, sometime w (fun s => e_dtstart (obj s r) = t) /\ sometime w (fun s => e_duration (obj s r) = d) /\ no_end t d x)
     \/ (x = AttributeError /\ sometime w (fun s => e_recurrence (obj s r) <> None) /\ sometime w (fun s => e_recurrence (obj s r) = None)))
  /\ export_reads private r w <> OutOfFuel.
Proof.
  unfold export_reads. pose proof (end_decides (e_dtstart (obj (w AtStart2) r)) (e_duration (obj (w AtDuration) r))) as D.
  destruct (end_of (e_dtstart (obj (w AtStart2) r)) (e_duration (obj (w AtDuration) r))) as [y|y|] eqn:EE; cbn [rbind].
  - destruct (e_recurrence (obj (w AtRule) r)) as [q|] eqn:E1; [destruct (e_recurrence (obj (w AtRule2) r)) as [q'|] eqn:E2|]; cbn [rbind]; (split; [|discriminate]);
      intros x H; try discriminate. injection H as <-. right. split; [reflexivity|]. split; [exists AtRule; rewrite E1; discriminate|now exists AtRule2].
  - split; [|discriminate]. intros x H. injection H as ->. left. exists (e_dtstart (obj (w AtStart2) r)), (e_duration (obj (w AtDuration) r)).
    split; [now exists AtStart2|]. split; [now exists AtDuration|]. now apply (decides_iff _ _ _ D).
  - exfalso. unfold end_of, dt_add in EE. destruct (e_duration _) in EE; [|discriminate]. destruct (dt_ok _) in EE; discriminate.
Qed.
Print Assumptions C174_raises.

(** ** if nobody changes the event *)
Lemma reads_still private r w e : (forall k, obj (w k) r = e) -> export_reads private r w = export_event private e.
Proof.
  intros H. unfold export_reads, export_event. rewrite !H. destruct (end_of _ _); cbn [rbind]; try reflexivity.
  assert (T : forall x, if_again x x = truthy x) by (intros [|ch x]; reflexivity). rewrite !T.
  assert (C : match e_categories e with [] => [] | _ :: _ => e_categories e end = e_categories e) by (destruct (e_categories e); reflexivity). rewrite C.
  assert (D : match e_document e with Some d => match truthy d with Some _ => e_document e | None => None end | None => None end
              = match e_document e with Some d => truthy d | None => None end) by (destruct (e_document e) as [[|ch d]|]; reflexivity). rewrite D.
  destruct (e_recurrence e); reflexivity.
Qed.

(** the event is written as it is, and what is not changed meanwhile is right anyway: an export
    during which the times of the event stay has exactly these times *)
Theorem C174_event private r w :
  (forall e, (forall k, obj (w k) r = e) -> forall v, export_reads private r w = Ok v <-> written private e v)
  /\ (forall a t d v, (forall k, e_allday (obj (w k) r) = a /\ e_dtstart (obj (w k) r) = t /\ e_duration (obj (w k) r) = Some d) ->
        export_reads private r w = Ok v -> written_time a t (v_dtstart v) /\ written_time a (t + d) (v_dtend v)).
Proof.
  split.
  - intros e H v. rewrite (reads_still private r w e H). apply (proj1 (C150_event private e)).
  - intros a t d v H E. apply C174_pieces in E. destruct E as (_ & _ & _ & (a' & t' & d' & (k1 & A) & (k2 & S) & (k3 & T) & (k4 & D) & _ & W) & _).
    destruct (H k1) as (A1 & _). destruct (H k2) as (_ & S2 & _). destruct (H k3) as (_ & T3 & _). destruct (H k4) as (_ & _ & D4).
    cbv beta in *. rewrite A1 in A. rewrite T3 in T. rewrite D4 in D. injection D as D. subst a' t' d'. split; [rewrite <- S2; exact S|exact W].
Qed.
Print Assumptions C174_event.

(** ** a calendar *)
Lemma all_pieces rs : forall ws vs, export_all rs ws = Ok vs -> Forall2 (fun r v => exists w, In w ws /\ pieces false w r v) rs vs.
Proof.
  induction rs as [|r rs IH]; intros ws vs H; cbn [export_all] in H; [injection H as <-; constructor|].
  destruct ws as [|w ws]; [discriminate|]. destruct (export_reads false r w) as [v| |] eqn:E; try discriminate. cbn [rbind] in H.
  destruct (export_all rs ws) as [l| |] eqn:F; try discriminate. cbn [rbind] in H. injection H as <-. constructor.
  - exists w. split; [now left|]. now apply C174_pieces.
  - pose proof (IH _ _ F) as G. clear - G. induction G as [|a b l m (w' & I & P) G IH]; constructor; [|exact IH]. exists w'. split; [now right|exact P].
Qed.

(** one component for each event found, in order; the events found were stored when the query
    began, and met every condition during it (as in C170) *)
Theorem C174_calendar c p cr s0 atts s look tell vs : cal_attendees s0 c = Ok atts -> export_run c p cr s0 (s :: look) tell = Ok vs ->
  exists rs, some_of rs (refs_of s) /\ Forall2 (fun r v => exists w, In w tell /\ pieces false w r v) rs vs
  /\ forall r, In r rs -> met (s :: look) (restrict_attendees cr atts) r /\ once (s :: look) (fun s' => touches p (obj s' r)).
Proof.
  intros A H. unfold export_run in H. rewrite A in H. cbn [rbind] in H. destruct (rturns (export_query p cr atts) (s :: look)) as [| | | | | | | |[[rs|]| |]] eqn:E; try discriminate.
  destruct (C170_found _ _ _ _ E) as [S M]. exists rs. split; [exact S|]. split; [now apply all_pieces|exact M].
Qed.
Print Assumptions C174_calendar.

(** some calls lead from one state to the other *)
Definition after_calls (cf : config) (s s' : system) : Prop := exists ops, s' = fold_left (fun s o => sst (step cf s o)) ops s.

Lemma after_grows cf s s' : store_inv s -> after_calls cf s s' -> grows s s'.
Proof.
  intros I (ops & ->). revert s I. induction ops as [|o ops IH]; intros s I; cbn [fold_left]; [apply grows_refl|].
  destruct (step_tracks cf s o I) as (I' & G & _). eapply grows_trans; [exact G|]. now apply IH.
Qed.

Lemma some_of_incl {A} (l m : list A) : some_of l m -> (forall x, In x l -> In x m) /\ (NoDup m -> NoDup l).
Proof.
  induction 1 as [|x l m H [IH1 IH2]|x l m H [IH1 IH2]].
  - split; [auto|constructor].
  - split; [intros y Y; right; auto|]. intros N. inversion N. auto.
  - split; [intros y [Y|Y]; [now left|right; auto]|]. intros N. inversion N; subst. constructor; auto.
Qed.

Lemma store_refs s : store_inv s -> NoDup (refs_of s) /\ forall r, In r (refs_of s) -> (r < List.length (sys_heap s))%nat /\ dget (sys_store s) (e_uid (obj s r)) = Some r.
Proof.
  intros [ND ST]. assert (X : forall u r, In (u, r) (sys_store s) -> (r < List.length (sys_heap s))%nat /\ e_uid (obj s r) = u /\ dget (sys_store s) u = Some r).
  { intros u r H. apply (in_dget _ _ _ ND) in H. destruct (ST u r H) as (L & U & _). auto. }
  split.
  - unfold refs_of. assert (Y : forall u r, In (u, r) (sys_store s) -> e_uid (obj s r) = u) by (intros u r H; now apply X). clear X ST. revert ND Y. unfold dkeys.
    generalize (sys_store s). intros l. induction l as [|[u r] l IH]; intros ND Y; cbn; [constructor|]. cbn in ND. inversion ND as [|? ? N1 N2]; subst. constructor.
    + intros H. apply in_map_iff in H as ([u' r'] & E & H). cbn in E. subst r'. apply N1. rewrite <- (Y u r (or_introl eq_refl)), (Y u' r (or_intror H)).
      apply in_map_iff. now exists (u', r).
    + apply IH; [exact N2|]. intros u' r' H. apply Y. now right.
  - intros r H. unfold refs_of in H. apply in_map_iff in H as ([u r'] & E & H). cbn in E. subst r'. destruct (X u r H) as (L & <- & D). auto.
Qed.

(** When the others make calls meanwhile: every component has the uid of an event stored when the
    query began, and no uid is written twice. *)
Theorem C174_uids cf c p cr s0 atts s look tell vs : reachable cf s -> cal_attendees s0 c = Ok atts ->
  (forall w k, In w tell -> after_calls cf s (w k)) -> export_run c p cr s0 (s :: look) tell = Ok vs ->
  NoDup (map v_uid vs) /\ forall v, In v vs -> exists u, v_uid v = Some u /\ has_event s u = true.
Proof.
  intros R A AF H. destruct (C174_calendar _ _ _ _ _ _ _ _ _ A H) as (rs & S & F & _). pose proof (reachable_store cf s R) as SI.
  destruct (store_refs s SI) as [ND ST]. destruct (some_of_incl _ _ S) as [IN NR]. specialize (NR ND).
  assert (F' : Forall2 (fun r v => v_uid v = Some (e_uid (obj s r))) rs vs).
  { clear H. assert (IN' : forall r, In r rs -> (r < List.length (sys_heap s))%nat) by (intros r Hr; now apply ST, IN). clear - F IN' AF SI.
    induction F as [|r v rs vs (w & W & (k & U) & _) F IH]; constructor.
    - destruct (after_grows cf s (w k) SI (AF w k W)) as [_ G]. rewrite U, G; [reflexivity|]. apply IN'. now left.
    - apply IH. intros r' H'. apply IN'. now right. }
  clear F. split.
  - assert (E : map v_uid vs = map (fun r => Some (e_uid (obj s r))) rs) by (clear - F'; induction F'; cbn; congruence).
    rewrite E. clear - IN NR ST. induction rs as [|r rs IH]; cbn; [constructor|]. inversion NR as [|? ? N1 N2]; subst. constructor.
    + intros X. apply in_map_iff in X as (r' & X & I). injection X as X. apply N1. destruct (ST r (IN r (or_introl eq_refl))) as [_ D]. destruct (ST r' (IN r' (or_intror I))) as [_ D'].
      assert (r' = r) by congruence. now subst.
    + apply IH; [|exact N2]. intros x X. apply IN. now right.
  - intros v V. clear - F' V IN ST. induction F' as [|r w rs vs U F IH]; [destruct V|]. destruct V as [->|V].
    + exists (e_uid (obj s r)). split; [exact U|]. destruct (ST r (IN r (or_introl eq_refl))) as [_ D]. rewrite has_event_dget, D. reflexivity.
    + apply IH; [intros x X; apply IN; now right|exact V].
Qed.
Print Assumptions C174_uids.

(** If nobody changes the events stored when the export began, it says what it would say alone. *)
Theorem C174_still c p cr s look tell atts : cal_attendees s c = Ok atts ->
  (forall s' r, In s' look -> In r (refs_of s) -> obj s' r = obj s r) ->
  (forall w k r, In w tell -> In r (refs_of s) -> obj (w k) r = obj s r) ->
  (limit (export_query p cr atts) s <= List.length look)%nat -> (List.length (sys_store s) <= List.length tell)%nat ->
  export_run c p cr s (s :: look) tell = export_cal s c p cr.
Proof.
  intros A O W L L2. unfold export_run, export_cal, cal_events, calendar_events. rewrite A. cbn [rbind].
  destruct (C170_quiet (export_query p cr atts) s look O L) as (x & X & Q). rewrite X. unfold as_of in Q. cbn [export_query q_kind q_period q_crit] in Q.
  destruct (get_events (stored s) p (Some (restrict_attendees cr atts))) as [l|y|]; [|now subst x..]. destruct Q as (refs & -> & <-). cbn [rbind].
  destruct (C170_found _ _ _ _ X) as [S _]. destruct (some_of_incl _ _ S) as [IN _].
  assert (LR : (List.length refs <= List.length tell)%nat).
  { assert (Y : (List.length refs <= List.length (refs_of s))%nat) by (clear - S; induction S; cbn; lia). unfold refs_of in Y. rewrite map_length in Y. lia. }
  clear - W IN LR. revert tell W LR. induction refs as [|r rs IH]; intros tell W LR; [destruct tell; reflexivity|].
  destruct tell as [|w tell]; [cbn in LR; lia|]. cbn [export_all map rmap].
  rewrite (reads_still false r w (obj s r)) by (intros k; apply W; [now left|apply IN; now left]).
  rewrite IH; [reflexivity|intros q Q; apply IN; now right|intros w' k r' I1 I2; apply W; [now right|exact I2]|cbn in LR; lia].
Qed.
Print Assumptions C174_still.

(** In particular if events are only created and deleted meanwhile. *)
Theorem C174_undisturbed cf c p cr s look tell atts : reachable cf s -> cal_attendees s c = Ok atts ->
  (forall s', In s' look -> added cf s s') -> (forall w k, In w tell -> added cf s (w k)) ->
  (limit (export_query p cr atts) s <= List.length look)%nat -> (List.length (sys_store s) <= List.length tell)%nat ->
  export_run c p cr s (s :: look) tell = export_cal s c p cr.
Proof.
  intros R A H1 H2 L1 L2. destruct (store_refs s (reachable_store cf s R)) as [_ ST].
  apply (C174_still c p cr s look tell atts A); [| |exact L1|exact L2].
  - intros s' r I1 I2. apply (added_obj cf); [now apply H1|]. now apply ST.
  - intros w k r I1 I2. apply (added_obj cf); [now apply H2|]. now apply ST.
Qed.
Print Assumptions C174_undisturbed.

(** ** examples *)
(** the reads in order *)
Definition read_no (k : site) : nat :=
  match k with
  | AtAllday => 0 | AtStart => 1 | AtStart2 => 2 | AtDuration => 3 | AtRule => 4 | AtRule2 => 5 | AtTransparent => 6 | AtUid => 7 | AtAccess => 8
  | AtTitle => 9 | AtDescription => 10 | AtDescription2 => 11 | AtLocation => 12 | AtLocation2 => 13 | AtCategories => 14 | AtCategories2 => 15
  | AtDocument => 16 | AtDocument2 => 17 | AtStatus => 18
  end.
(** somebody makes a call just before the read [k0] *)
Definition call_before (k0 : site) (s s' : system) : site -> system := fun k => if (read_no k <? read_no k0)%nat then s else s'.

Definition xp_spec (h : Z) (title access : string) (rec : option rule) : spec :=
  mkSpec (p_at 732500 h) (Some HOUR) title "agenda"%string ""%string "TENTATIVE"%string rec false ["work"%string] false access None ann [].
Definition xp_daily : rule := mkRule KDaily 1 None None [] [] ""%string.
Definition xp_now (ops : list op) : system := run cf0 (office ++ [OAssign 0 (xp_spec 9 "Meeting" "PUBLIC" (Some xp_daily))]%string ++ ops).

(** the whole calendar: a1 gets another title after its class is read, and b1 is deleted *)
Definition xp_later : system := xp_now [OAssign 0 (xp_spec 9 "Party" "PUBLIC" (Some xp_daily)); ODelete 2]%string.
Definition xp_look : list system := repeat (xp_now []) 20.
Definition xp_tell : list (site -> system) := [call_before AtTitle (xp_now []) xp_later; fun _ => xp_later; fun _ => xp_later].

Example C174_case : reachable cf0 (xp_now []) /\ (forall w k, In w xp_tell -> after_calls cf0 (xp_now []) (w k))
  /\ cal_attendees (xp_now []) 0 = Ok [ann]
  /\ exists v1 v2, export_run 0 (None, None) None (xp_now []) (xp_now [] :: xp_look) xp_tell = Ok [v1; v2]
     /\ v_uid v1 = Some "a1"%string /\ v_summary v1 = Some "Party"%string /\ v_uid v2 = Some "a2"%string.
Proof.
  split; [apply run_reachable|]. split.
  - assert (B : after_calls cf0 (xp_now []) xp_later).
    { eexists. unfold xp_later, xp_now, run. rewrite app_nil_r, app_assoc, fold_left_app. reflexivity. }
    assert (Z0 : after_calls cf0 (xp_now []) (xp_now [])) by (exists []; reflexivity).
    intros w k [<-|[<-|[<-|[]]]]; [|exact B..]. unfold call_before. destruct (read_no k <? read_no AtTitle)%nat; assumption.
  - split; [vm_compute; reflexivity|]. do 2 eexists. split; [vm_compute; reflexivity|]. repeat split.
Qed.

(** only creations and deletions meanwhile *)
Example C174_still_case : let s := xp_now [] in let s' := xp_now [ODelete 1; OCreate (Some "z"%string) (xp_spec 9 "New" "PUBLIC" None) 0]%string in
  (forall r, In r (refs_of s) -> obj s' r = obj s r) /\ added cf0 s s' /\ s' <> s
  /\ (limit (export_query (None, None) None [ann]) s <= List.length (repeat s' 40))%nat /\ (List.length (sys_store s) <= List.length (repeat (fun _ : site => s') 3))%nat
  /\ exists v1 v2, export_run 0 (None, None) None s (s :: repeat s' 40) (repeat (fun _ => s') 3) = Ok [v1; v2] /\ export_cal s 0 (None, None) None = Ok [v1; v2].
Proof.
  cbv zeta. split; [intros r H; vm_compute in H; repeat (destruct H as [<-|H]; [vm_compute; reflexivity|]); destruct H|].
  split; [exists [ODelete 1; OCreate (Some "z"%string) (xp_spec 9 "New" "PUBLIC" None) 0]%string; split; [repeat constructor|vm_compute; reflexivity]|].
  split; [vm_compute; discriminate|]. split; [vm_compute; lia|]. split; [vm_compute; lia|]. do 2 eexists. split; vm_compute; reflexivity.
Qed.

(** ** refuted *)
(** A meeting that is moved meanwhile, from 9-10 to 12-13, is written as lasting from 9 to 13. *)
Theorem C174_moment_refuted : exists s o v, reachable cf0 s
  /\ export_reads false 0 (call_before AtStart2 s (sst (step cf0 s o))) = Ok v
  /\ v_dtstart v = Some (IFloat (p_at 732500 9)) /\ v_dtend v = Some (IFloat (p_at 732500 13))
  /\ ~ written false (obj s 0) v /\ ~ written false (obj (sst (step cf0 s o)) 0) v.
Proof.
  exists (xp_now []), (OAssign 0 (xp_spec 12 "Meeting" "PUBLIC" (Some xp_daily)))%string. eexists. split; [apply run_reachable|].
  split; [vm_compute; reflexivity|]. split; [reflexivity|]. split; [reflexivity|].
  split; intros H; apply (proj1 (C150_event _ _)) in H; vm_compute in H; discriminate.
Qed.
Print Assumptions C174_moment_refuted.

(** A rule that is taken away between the two looks at it makes the export raise AttributeError,
    though before and after it would return. *)
Theorem C174_returns_refuted : exists s o, reachable cf0 s
  /\ export_reads false 0 (call_before AtRule2 s (sst (step cf0 s o))) = Raise AttributeError
  /\ (exists v, export_event false (obj s 0) = Ok v) /\ (exists v, export_event false (obj (sst (step cf0 s o)) 0) = Ok v)
  /\ exists look, export_run 0 (None, None) None s (s :: look) [call_before AtRule2 s (sst (step cf0 s o))] = Raise AttributeError.
Proof.
  exists (xp_now []), (OAssign 0 (xp_spec 9 "Meeting" "PUBLIC" None))%string. split; [apply run_reachable|].
  split; [vm_compute; reflexivity|]. split; [eexists; vm_compute; reflexivity|]. split; [eexists; vm_compute; reflexivity|].
  exists (repeat (xp_now []) 20). vm_compute. reflexivity.
Qed.
Print Assumptions C174_returns_refuted.

(** A title given together with the class PRIVATE can be written under the class PUBLIC. *)
Theorem C174_public_refuted : exists s o v, reachable cf0 s
  /\ export_reads false 0 (call_before AtTitle s (sst (step cf0 s o))) = Ok v
  /\ v_class v = Some "PUBLIC"%string /\ v_summary v = Some "Surgery"%string
  /\ e_title (obj s 0) = "Meeting"%string /\ e_access (obj (sst (step cf0 s o)) 0) = "PRIVATE"%string.
Proof.
  exists (xp_now []), (OAssign 0 (xp_spec 9 "Surgery" "PRIVATE" (Some xp_daily)))%string. eexists. split; [apply run_reachable|].
  split; [vm_compute; reflexivity|]. repeat split.
Qed.
Print Assumptions C174_public_refuted.
