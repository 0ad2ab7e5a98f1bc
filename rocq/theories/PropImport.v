(** Properties of imports: who takes part afterwards (C63), people the attendee
    source does not know (C64), which texts import without error (C65), importing twice (C66). *)
From Verif Require Import Base PyDate DateFacts Recurrent RecurMisc CalTime TimeProofs Event Storage ICal System
  QueryProofs BlockProofs EventProofs SpecProofs SystemProofs StoreProofs IdProofs ImportProofs PropEvent PropSystem
  ICalProofs ImportContent ImportTwice PropICal.
From Coq Require Import ZifyBool.
Ltac Zify.zify_post_hook ::= Z.div_mod_to_equations.
Local Opaque ord2ymd year_of month_of day_of ymd2ord days_in_month is_leap.

(** * C63: who takes part in an imported event *)
(** A new event: exactly those with a line, with the status and role of their
    last line, and the organizer. *)
Theorem C63_new cf s c vs p cr sync s' n v u : reachable cf s -> NoDup (import_uids vs) ->
  step cf s (OImport c (Ok (Some vs)) p cr sync) = (s', n, Ok tt) -> In v vs -> v_uid v = Some u ->
  has_event s u = false ->
  exists r, get_event s' u = Ok r
    /\ forall i, get_status (obj s' r) (Some i) = Ok (said_status v (get_organizer_id (obj s' r)) None i)
              /\ get_role (obj s' r) (Some i) = Ok (said_role v (get_organizer_id (obj s' r)) None i).
Proof.
  intros H ND E Hv V NEW. apply reachable_store in H. cbn [step] in E.
  destruct (import_outcome cf s c vs p cr sync H ND ltac:(rewrite E; reflexivity) v u Hv V) as (r & D & O).
  rewrite E in D, O. unfold sst in D, O. cbn [fst] in D, O. unfold get_event. rewrite D. exists r. split; [reflexivity|].
  rewrite has_event_dget in NEW. destruct (dget (sys_store s) u) eqn:DS; [discriminate|].
  destruct O as [(_ & _ & _ & X & _)|[(_ & _ & _ & (_ & _ & P))|(_ & X & _)]]; [congruence| |congruence].
  intros i. destruct (P i) as [P1 P2]. unfold get_status, get_role, get_organizer_id. cbn [attendee_id rbind].
  split; f_equal; assumption.
Qed.
Print Assumptions C63_new.

(** An event the calendar already showed: the statuses are those of the lines,
    the organizer without a line has accepted, everybody else keeps theirs. *)
Theorem C63_existing_status cf s c vs p cr sync s' n v u : reachable cf s -> NoDup (import_uids vs) ->
  step cf s (OImport c (Ok (Some vs)) p cr sync) = (s', n, Ok tt) -> In v vs -> v_uid v = Some u ->
  visible s c p cr u ->
  exists r, get_event s u = Ok r /\ get_event s' u = Ok r
    /\ forall i old, get_status (obj s r) (Some i) = Ok old ->
         get_status (obj s' r) (Some i) = Ok (said_status v (get_organizer_id (obj s' r)) old i).
Proof.
  intros H ND E Hv V VIS. apply reachable_store in H. cbn [step] in E.
  destruct (import_outcome cf s c vs p cr sync H ND ltac:(rewrite E; reflexivity) v u Hv V) as (r & D & O).
  rewrite E in D, O. unfold sst in D, O. cbn [fst] in D, O. unfold get_event. rewrite D.
  destruct O as [(_ & _ & _ & X & (_ & P & _))|[(X & _)|(X & _)]]; [| |contradiction].
  - exists r. rewrite X. split; [reflexivity|]. split; [reflexivity|]. intros i old G. unfold get_status in *. cbn [attendee_id rbind] in *.
    assert (old = dget (e_state (obj s r)) i) by congruence. subst old. f_equal. apply P.
  - exfalso. destruct VIS as (evs & e & V1 & V2 & <-). destruct (cal_events_known s c p cr evs e H V1 V2) as (k & Y & _). congruence.
Qed.
Print Assumptions C63_existing_status.

(** Partial: the same for roles, when every line asks for the role
    REQ-PARTICIPANT, or when the import reports the event as modified. *)
Theorem C63_existing_role_partial cf s c vs p cr sync s' n v u : reachable cf s -> NoDup (import_uids vs) ->
  step cf s (OImport c (Ok (Some vs)) p cr sync) = (s', n, Ok tt) -> In v vs -> v_uid v = Some u ->
  visible s c p cr u ->
  exists r, get_event s u = Ok r /\ get_event s' u = Ok r
    /\ ((forall i ps ro, In (i, ps, ro) (v_attendees v) -> text ro "REQ-PARTICIPANT" = "REQ-PARTICIPANT"%string) \/ obj s' r <> obj s r ->
        forall i old, get_role (obj s r) (Some i) = Ok old ->
          get_role (obj s' r) (Some i) = Ok (said_role v (get_organizer_id (obj s' r)) old i)).
Proof.
  intros H ND E Hv V VIS. apply reachable_store in H. cbn [step] in E.
  destruct (import_outcome cf s c vs p cr sync H ND ltac:(rewrite E; reflexivity) v u Hv V) as (r & D & O).
  rewrite E in D, O. unfold sst in D, O. cbn [fst] in D, O. unfold get_event. rewrite D.
  destruct O as [(_ & _ & _ & X & (_ & _ & P))|[(X & _)|(X & _)]]; [| |contradiction].
  - exists r. rewrite X. split; [reflexivity|]. split; [reflexivity|]. intros C i old G. unfold get_role in *. cbn [attendee_id rbind] in *.
    assert (old = dget (e_role (obj s r)) i) by congruence. subst old. f_equal. unfold get_organizer_id.
    destruct P as [[_ P]|[Q P]]; [apply P|]. destruct C as [C|C]; [|congruence]. destruct (P i) as [P1 P2]. rewrite Q in *.
    destruct (last_line (v_attendees v) i) as [[ps ro]|] eqn:L; [|now apply P2]. rewrite P1 by discriminate.
    unfold said_role. rewrite L. apply last_line_in in L. cbn in L. now rewrite (C _ _ _ L).
  - exfalso. destruct VIS as (evs & e & V1 & V2 & <-). destruct (cal_events_known s c p cr evs e H V1 V2) as (k & Y & _). congruence.
Qed.
Print Assumptions C63_existing_role_partial.

(** bob declines a1 as an optional participant; a new event of bob's *)
Definition x_parts : list vevent :=
  [mkV (Some "a1") (Some (IFloat (p_at 732500 9))) (Some (IFloat (p_at 732500 10))) None (Some "Meeting") None None None None
     [("bob", Some "DECLINED", Some "OPT-PARTICIPANT"); ("bob", Some "ACCEPTED", None)] [] None None None None;
   mkV (Some "n1") (Some (IFloat (p_at 732500 9))) None (Some HOUR) (Some "New") None None None (Some "bob")
     [("ann", None, Some "CHAIR")] [] None None None None]%string.

Example C63_case : NoDup (import_uids x_parts) /\ visible (run cf0 office) 0 (None, None) None "a1"
  /\ has_event (run cf0 office) "n1" = false
  /\ (let m := step cf0 (run cf0 office) (OImport 0 (Ok (Some x_parts)) (None, None) None true) in
      srs m = Ok tt /\ e_state (obj (sst m) 0) = [("ann", "ACCEPTED"); ("bob", "ACCEPTED")]%string
      /\ e_state (obj (sst m) 3) = [("bob", "ACCEPTED"); ("ann", "NEEDS-ACTION")]%string
      /\ e_role (obj (sst m) 3) = [("bob", "REQ-PARTICIPANT"); ("ann", "CHAIR")]%string).
Proof.
  split; [|split; [|split]].
  - cbn. constructor; [intros [X|[]]; discriminate X|]. constructor; [intros []|constructor].
  - eexists. eexists. split; [vm_compute; reflexivity|]. split; [left; reflexivity|]. reflexivity.
  - vm_compute. reflexivity.
  - vm_compute. auto.
Qed.

(** Refuted for the roles of an existing event: a text that only changes a role
    is taken for no change. *)
Theorem C63_existing_role_refuted : exists s c v r, reachable cf0 s
  /\ v_attendees v = [("bob", Some "DECLINED", Some "CHAIR")]%string
  /\ step cf0 s (OImport c (Ok (Some [v])) (None, None) None false) = (s, [], Ok tt)
  /\ get_event s "x" = Ok r /\ visible s c (None, None) None "x"
  /\ get_role (obj s r) bob = Ok (Some "REQ-PARTICIPANT"%string).
Proof.
  exists (run cf0 (office ++ [OCreate (Some "x") (p_spec (p_at 732505 9) (Some HOUR) false ann [(bob, "REQ-PARTICIPANT", Some "DECLINED")]) 0]))%string, O,
    (mkV (Some "x") (Some (IFloat (p_at 732505 9))) None (Some HOUR) (Some "Meeting") None None None None
     [("bob", Some "DECLINED", Some "CHAIR")] [] None None None None)%string, 3%nat.
  split; [apply run_reachable|]. split; [reflexivity|]. split; [vm_compute; reflexivity|]. split; [vm_compute; reflexivity|].
  split; [|vm_compute; reflexivity]. eexists. eexists. split; [vm_compute; reflexivity|]. split; [right; right; left; reflexivity|]. reflexivity.
Qed.
Print Assumptions C63_existing_role_refuted.

(** * C64: people the attendee source does not know *)
(** Refuted, for every state and text: an import never succeeds when an event of
    the calendar, or a new one, lists a participant the source does not know. *)
Theorem C64_unknown_participant_refuted cf s c vs p cr sync v u i ps ro : reachable cf s -> NoDup (import_uids vs) ->
  In v vs -> v_uid v = Some u -> visible s c p cr u \/ has_event s u = false ->
  In (i, ps, ro) (v_attendees v) -> source_knows s i = false ->
  srs (step cf s (OImport c (Ok (Some vs)) p cr sync)) <> Ok tt.
Proof.
  intros H ND Hv V W L K E. apply reachable_store in H. cbn [step] in E.
  destruct (import_outcome cf s c vs p cr sync H ND E v u Hv V) as (r & D & O).
  destruct O as [(_ & _ & _ & _ & (X & _))|[(_ & _ & _ & (X & _))|(X & Y & _)]].
  - rewrite (X _ _ _ L) in K. discriminate.
  - rewrite (X _ _ _ L) in K. discriminate.
  - destruct W as [W|W]; [contradiction|]. rewrite has_event_dget, Y in W. discriminate.
Qed.
Print Assumptions C64_unknown_participant_refuted.

(** such a text, and what importing it leaves behind: the event is half changed *)
Example C64_case :
  let v := (mkV (Some "a1") (Some (IFloat (p_at 732500 9))) None (Some HOUR) (Some "Changed") None None None None
     [("zoe", None, None)] [] None None None None)%string in
  let m := step cf0 (run cf0 office) (OImport 0 (Ok (Some [v])) (None, None) None false) in
  visible (run cf0 office) 0 (None, None) None "a1" /\ source_knows (run cf0 office) "zoe" = false
  /\ srs m = Raise AttributeError /\ snt m = [] /\ e_title (obj (sst m) 0) = "Changed"%string
  /\ e_title (obj (run cf0 office) 0) = "Meeting"%string.
Proof.
  split; [|vm_compute; auto 10]. eexists. eexists. split; [vm_compute; reflexivity|]. split; [left; reflexivity|]. reflexivity.
Qed.

(** An organizer the source does not know is no obstacle: the calendar's main
    attendee is taken instead. *)
Theorem C64_unknown_organizer cf s c vs p cr sync s' n v u i : reachable cf s -> NoDup (import_uids vs) ->
  step cf s (OImport c (Ok (Some vs)) p cr sync) = (s', n, Ok tt) -> In v vs -> v_uid v = Some u ->
  visible s c p cr u \/ has_event s u = false -> v_organizer v = Some i -> source_knows s i = false ->
  exists r, get_event s' u = Ok r /\ main_attendee s c = Ok (get_organizer_id (obj s' r)).
Proof.
  intros H ND E Hv V W O K. destruct (C61_content cf s c vs p cr sync s' n v u H ND E Hv V W) as (r & G & _ & X).
  exists r. split; [exact G|]. unfold says_organizer in X. rewrite O, K in X. exact X.
Qed.
Print Assumptions C64_unknown_organizer.

Example C64_organizer_case :
  let v := (mkV (Some "n1") (Some (IFloat (p_at 732500 9))) None (Some HOUR) (Some "New") None None None (Some "zoe")
     [] [] None None None None)%string in
  let m := step cf0 (run cf0 office) (OImport 0 (Ok (Some [v])) (None, None) None false) in
  has_event (run cf0 office) "n1" = false /\ source_knows (run cf0 office) "zoe" = false
  /\ srs m = Ok tt /\ e_organizer (obj (sst m) 3) = ann.
Proof. vm_compute. auto. Qed.

(** * C65: a well-formed text imports without error *)
(** what a component needs when it is to be imported *)
Definition well_formed (cf : config) (s : system) (c : nat) (existing : bool) (v : vevent) : Prop :=
  (exists t0 x, v_dtstart v = Some t0 /\ local_time (cf_tz cf) t0 x)
  /\ (forall t1, v_dtend v = Some t1 -> exists x, local_time (cf_tz cf) t1 x)
  /\ (forall rr, v_rrule v = Some rr -> readable rr)
  /\ (exists o, says_organizer (source_knows s) (main_attendee s c) v o /\ (existing = true -> o <> None))
  /\ all_known (source_knows s) v /\ all_roles v.

Lemma local_float tz t x : local_time tz t x -> float_time tz t = Ok x.
Proof.
  destruct t as [d|y|y off]; cbn; intros H; [unfold combine; f_equal; lia|congruence|]. destruct H as (O1 & O2 & E).
  unfold dt_add. change (y + - off) with (y - off). rewrite O1. cbn [rbind].
  replace (y - off + tz (y - off)) with x by lia. now rewrite O2.
Qed.

Lemma import_spec_total cf s c b v : well_formed cf s c b v ->
  exists sp, import_spec (cf_tz cf) (source_knows s) (main_attendee s c) v = Ok sp /\ (b = true -> s_organizer sp <> None).
Proof.
  intros ((t0 & x & T0 & L0) & T1 & RR & (o & O & NO) & _ & _). unfold import_spec, dtstart_duration. rewrite T0.
  rewrite (local_float _ _ _ L0). cbn [rbind].
  assert (SDA : exists d, (match v_dtend v with
      | Some e0 => rbind (float_time (cf_tz cf) e0) (fun e => Ok (x, e - x, match t0 with IDate _ => true | _ => false end))
      | None => match v_duration v with Some d => Ok (x, d, match t0 with IDate _ => true | _ => false end)
                | None => Ok (x, 0, match t0 with IDate _ => true | _ => false end) end end)
     = Ok (x, d, match t0 with IDate _ => true | _ => false end)).
  { destruct (v_dtend v) as [t1|]; [|destruct (v_duration v); eauto].
    destruct (T1 t1 eq_refl) as (y & L1). rewrite (local_float _ _ _ L1). cbn. eauto. }
  destruct SDA as (d & ->). cbn [rbind].
  match goal with |- context [rbind ?r _] => assert (OO : r = Ok o) end.
  { revert O. unfold says_organizer. destruct (v_organizer v) as [i|]; [|auto]. destruct (source_knows s i); [intros ->; reflexivity|auto]. }
  rewrite OO. cbn [rbind]. destruct (v_rrule v) as [rr|].
  - destruct (C54_readable_imports rr (RR rr eq_refl)) as (r & ->). cbn [rbind]. eexists. split; [reflexivity|]. exact NO.
  - cbn [rbind]. eexists. split; [reflexivity|]. exact NO.
Qed.

Lemma set_on_object_total cf s c b v sp e : well_formed cf s c b v ->
  import_spec (cf_tz cf) (source_knows s) (main_attendee s c) v = Ok sp ->
  exists e', set_on_object sp e = (e', [], Ok tt).
Proof.
  intros (_ & _ & _ & _ & AK & AR) ES. rewrite set_on_object_eq, (import_spec_entries _ _ _ _ _ ES).
  match goal with |- context [set_attendees ?x _] => generalize x end. unfold all_known, all_roles in *.
  induction (v_attendees v) as [|[[i ps] ro] l IH]; intros e0; [eexists; reflexivity|].
  cbn [map line_entry set_attendees]. rewrite (AK i ps ro (or_introl eq_refl)).
  change (mbind (set_role e0 (Some i) (text ro "REQ-PARTICIPANT")) (fun e1 => set_status_raw e1 (Some i) (Some (text ps "NEEDS-ACTION"))))
      with (entry_step e0 (Some i) (text ro "REQ-PARTICIPANT") (Some (text ps "NEEDS-ACTION"))).
  rewrite entry_step_ok by (exact (AR i ps ro (or_introl eq_refl))). rewrite mbind_ok.
  match goal with |- context [set_attendees ?x _] => destruct (IH (fun i ps ro H => AK i ps ro (or_intror H)) (fun i ps ro H => AR i ps ro (or_intror H)) x) as (e' & ->) end.
  eexists. reflexivity.
Qed.

Lemma will_modify_total sp e : s_organizer sp <> None -> (forall a ro st, In (a, ro, st) (s_attendees sp) -> a <> None) ->
  exists b, will_modify sp e = Ok b.
Proof.
  intros O H. unfold will_modify. destruct (s_organizer sp) as [o|]; [|congruence].
  destruct (attrs_differ sp e); [eauto|]. destruct (negb _); [eauto|].
  unfold get_status, get_role. cbn [attendee_id rbind]. destruct (negb _); [eauto|]. destruct (negb _); [eauto|].
  now apply attendees_differ_total.
Qed.

Lemma import_one_total cf s c known v u : store_inv s -> (forall k, In k known -> has_event s k = true) ->
  v_uid v = Some u -> (In u known \/ has_event s u = false -> well_formed cf s c (str_in u known) v) ->
  exists s' n, import_one cf s c known v = (s', n, Ok u).
Proof.
  intros I KN U W. unfold import_one. rewrite U. destruct (str_in u known) eqn:K.
  - pose proof K as K'. apply str_in_iff in K'. specialize (W (or_introl K')). specialize (KN u K'). rewrite has_event_dget in KN.
    unfold import_existing, get_event. rewrite sbind_slift. destruct (dget (sys_store s) u) as [r|]; [|discriminate].
    destruct (import_spec_total cf s c true v W) as (sp & ES & NO). rewrite sbind_slift, ES, sbind_slift.
    destruct (will_modify_total sp (obj s r) (NO eq_refl)) as ([|] & ->).
    + rewrite (import_spec_entries _ _ _ _ _ ES). intros a ro st H. apply in_map_iff in H as ([[i ps] ro'] & E & H). cbn in E.
      destruct W as (_ & _ & _ & _ & AK & _). rewrite (AK _ _ _ H) in E. intros ->. discriminate E.
    + unfold on_event. destruct (set_on_object_total cf s c true v sp (obj s r) W ES) as (e' & ->). cbn. eauto.
    + cbn. eauto.
  - destruct (has_event s u) eqn:HE; [do 2 eexists; reflexivity|]. specialize (W (or_intror eq_refl)). unfold import_new. rewrite sbind_slift.
    destruct (import_spec_total cf s c false v W) as (sp & ES & _). rewrite ES. unfold create_event, new_event.
    destruct (set_on_object_total cf s c false v sp (blank u) W ES) as (e' & ->). do 2 eexists; reflexivity.
Qed.

Lemma import_loop_total cf c known l : forall s, store_inv s -> (forall k, In k known -> has_event s k = true) ->
  (forall v, In v l -> exists u, v_uid v = Some u /\ (In u known \/ has_event s u = false -> well_formed cf s c (str_in u known) v)) ->
  exists us, srs (import_loop cf s c known l) = Ok us.
Proof.
  induction l as [|v l IH]; intros s I KN W; [eexists; reflexivity|]. cbn [import_loop].
  destruct (W v (or_introl eq_refl)) as (u & U & WF).
  destruct (import_one_total cf s c known v u I KN U WF) as (s1 & n1 & E1).
  pose proof (import_one_frame1 cf s c known v) as F1. pose proof (import_one_tracks cf s c known v I) as (I1 & _).
  rewrite E1 in F1, I1. unfold sst in F1, I1. cbn [fst] in F1, I1. rewrite E1. cbn [sbind].
  destruct (IH s1) as (us & E2).
  - exact I1.
  - intros k Hk. eapply frame_has; [exact F1|auto].
  - intros w Hw. destruct (W w (or_intror Hw)) as (uw & UW & WW). exists uw. split; [exact UW|]. intros C.
    destruct F1 as (G1 & G2 & G3 & G4 & GS & GC). destruct (same_source s s1 c GS GC) as [SK SM].
    unfold well_formed. rewrite SK, SM. apply WW. destruct C as [C|C]; [now left|]. right.
    rewrite has_event_dget in *. destruct (dget (sys_store s) uw) as [r|] eqn:D; [|reflexivity]. now rewrite (G2 _ _ D) in C.
  - destruct (import_loop cf s1 c known l) as [[s2 n2] r2]. unfold srs in *. cbn in *. subst r2. cbn. eauto.
Qed.

(** Every component has an id; those of the calendar's events and of new events
    are well formed; then the import succeeds, synchronizing or not. *)
Theorem C65_well_formed_imports cf s c vs p cr sync evs : reachable cf s -> cal_events s c p cr = Ok evs ->
  (forall v, In v vs -> exists u, v_uid v = Some u
     /\ (visible s c p cr u -> well_formed cf s c true v) /\ (has_event s u = false -> well_formed cf s c false v)) ->
  srs (step cf s (OImport c (Ok (Some vs)) p cr sync)) = Ok tt.
Proof.
  intros H E W. apply reachable_store in H. cbn [step].
  unfold import_cal. rewrite sbind_slift, E, sbind_slift.
  destruct (import_loop_total cf c (nodup string_dec (map e_uid evs)) vs s H (known_stored s c p cr evs H E)) as (us & X).
  { intros v Hv. destruct (W v Hv) as (u & U & W1 & W2). exists u. split; [exact U|].
    destruct (str_in u (nodup string_dec (map e_uid evs))) eqn:K.
    - intros _. apply W1. apply str_in_iff, known_in in K as (e & He & <-). exists evs, e. auto.
    - intros [C|C]; [apply str_in_iff in C; congruence|auto]. }
  pose proof (import_loop_frame (nodup string_dec (map e_uid evs)) (import_uids vs) cf c vs (fun u Hu => Hu) s) as F.
  pose proof (import_loop_tracks cf c (nodup string_dec (map e_uid evs)) vs s H) as (I1 & _).
  destruct (import_loop cf s c (nodup string_dec (map e_uid evs)) vs) as [[s1 n1] r1]. unfold srs, sst in *. cbn in X, F, I1. subst r1.
  cbn [sbind]. destruct sync; [|reflexivity].
  destruct (delete_loop_ok (filter (fun u => negb (str_in u us)) (nodup string_dec (map e_uid evs))) s1 I1) as (s2 & -> & _).
  { apply NoDup_filter, NoDup_nodup. }
  { intros u Hu. apply filter_In in Hu as [Hu _]. eapply frame_has; [exact F|]. now apply (known_stored s c p cr evs H E). }
  reflexivity.
Qed.
Print Assumptions C65_well_formed_imports.

Example C65_case : exists evs, cal_events (run cf0 office) 0 (None, None) None = Ok evs /\
  forall v, In v x_parts -> exists u, v_uid v = Some u
     /\ (visible (run cf0 office) 0 (None, None) None u -> well_formed cf0 (run cf0 office) 0 true v)
     /\ (has_event (run cf0 office) u = false -> well_formed cf0 (run cf0 office) 0 false v).
Proof.
  eexists. split; [vm_compute; reflexivity|].
  assert (WF : forall b v, In v x_parts -> well_formed cf0 (run cf0 office) 0 b v).
  { intros b v [<-|[<-|[]]].
    - split; [do 2 eexists; split; reflexivity|]. split; [intros t1 E; injection E as <-; eexists; reflexivity|]. split; [discriminate|].
      split; [exists ann; split; [vm_compute; reflexivity|discriminate]|].
      split; intros i ps ro [X|[X|[]]]; injection X as <- <- <-; vm_compute; auto.
    - split; [do 2 eexists; split; reflexivity|]. split; [discriminate|]. split; [discriminate|].
      split; [exists bob; split; [vm_compute; reflexivity|discriminate]|].
      split; intros i ps ro [X|[]]; injection X as <- <- <-; vm_compute; auto. }
  intros v Hv. pose proof (WF true v Hv). pose proof (WF false v Hv). destruct Hv as [<-|[<-|[]]]; eexists; split; try reflexivity; auto.
Qed.

(** * C66: importing the same text again *)
(** Partial: the second import leaves the whole system as it is, whatever its
    outcome, when the new whole-day events of the text last whole days.  Missing:
    a new whole-day event without an end, and repeated ids. *)
Theorem C66_again_partial cf s c vs p cr sync s' n : reachable cf s -> NoDup (import_uids vs) ->
  step cf s (OImport c (Ok (Some vs)) p cr sync) = (s', n, Ok tt) ->
  (forall v u, In v vs -> v_uid v = Some u -> has_event s u = false ->
     forall t d, says_times (cf_tz cf) v t d true -> exists k, 1 <= k /\ d = k * DAY) ->
  sst (step cf s' (OImport c (Ok (Some vs)) p cr sync)) = s'.
Proof. exact (import_again cf s c vs p cr sync s' n). Qed.
Print Assumptions C66_again_partial.

(** ... and tells nobody about modifications, when the text asks for no other
    role, does not contradict itself about a person and lets the organizer accept *)
Theorem C66_again_silent_partial cf s c vs p cr sync s' n evs : reachable cf s -> NoDup (import_uids vs) ->
  step cf s (OImport c (Ok (Some vs)) p cr sync) = (s', n, Ok tt) ->
  (forall v u, In v vs -> v_uid v = Some u -> has_event s u = false ->
     forall t d, says_times (cf_tz cf) v t d true -> exists k, 1 <= k /\ d = k * DAY) ->
  (forall v, In v vs -> exists o, says_organizer (source_knows s) (main_attendee s c) v (Some o)
     /\ forall i ps ro, In (i, ps, ro) (v_attendees v) ->
          text ro "REQ-PARTICIPANT" = "REQ-PARTICIPANT"%string
          /\ (forall ps' ro', In (i, ps', ro') (v_attendees v) -> text ps' "NEEDS-ACTION" = text ps "NEEDS-ACTION")
          /\ (i = o -> text ps "NEEDS-ACTION" = "ACCEPTED"%string)) ->
  cal_events s' c p cr = Ok evs ->
  step cf s' (OImport c (Ok (Some vs)) p cr sync) = (s', [], Ok tt).
Proof.
  intros H ND E WD C X. cbn [step] in *. eapply import_again_silent; eauto. intros v Hv. destruct (C v Hv) as (o & SO & L).
  exists (Some o). split; [exact SO|]. split; [discriminate|]. intros i ps ro Hi. destruct (L i ps ro Hi) as (L1 & L2 & L3).
  split; [exact L1|]. split; [exact L2|]. intros Y. apply L3. congruence.
Qed.
Print Assumptions C66_again_silent_partial.

Definition x_again : list vevent :=
  [mkV (Some "a1") (Some (IFloat (p_at 732500 9))) (Some (IFloat (p_at 732500 10))) None (Some "Meeting") None None None None
     [("bob", Some "ACCEPTED", None)] [] None None None None;
   mkV (Some "n1") (Some (IDate 732500)) (Some (IDate 732502)) None (Some "Fair") None None None (Some "ann")
     [("bob", Some "DECLINED", None)] [] None None None None]%string.

Example C66_case :
  let m := step cf0 (run cf0 office) (OImport 0 (Ok (Some x_again)) (None, None) None true) in
  srs m = Ok tt /\ snt m <> [] /\ NoDup (import_uids x_again) /\ visible (sst m) 0 (None, None) None "n1"
  /\ (forall v u, In v x_again -> v_uid v = Some u -> has_event (run cf0 office) u = false ->
       forall t d, says_times (cf_tz cf0) v t d true -> exists k, 1 <= k /\ d = k * DAY)
  /\ (forall v, In v x_again -> says_organizer (source_knows (run cf0 office)) (main_attendee (run cf0 office) 0) v ann)
  /\ step cf0 (sst m) (OImport 0 (Ok (Some x_again)) (None, None) None true) = (sst m, [], Ok tt).
Proof.
  cbv zeta. split; [vm_compute; reflexivity|]. split; [vm_compute; discriminate|].
  split; [cbn; constructor; [intros [X|[]]; discriminate X|constructor; [intros []|constructor]]|].
  split; [do 2 eexists; split; [vm_compute; reflexivity|]; split; [right; left; reflexivity|reflexivity]|].
  split; [|split; [intros v [<-|[<-|[]]]; vm_compute; reflexivity|vm_compute; reflexivity]].
  intros v u Hv _ _ t d (t0 & E & L & AD & X).
  destruct Hv as [<-|[<-|[]]]; cbn in E; injection E as <-; [discriminate AD|]. cbn in *. exists 2. unfold DAY in *. lia.
Qed.

(** Refuted: a whole-day event without an end lasts one day after the first
    import and no time at all after the second. *)
Theorem C66_again_refuted : exists s c v s', reachable cf0 s
  /\ (exists n, step cf0 s (OImport c (Ok (Some [v])) (None, None) None false) = (s', n, Ok tt))
  /\ exists r, get_event s' "n1" = Ok r /\ e_duration (obj s' r) = Some DAY
  /\ let m := step cf0 s' (OImport c (Ok (Some [v])) (None, None) None false) in
     srs m = Ok tt /\ get_event (sst m) "n1" = Ok r /\ e_duration (obj (sst m) r) = Some 0.
Proof.
  exists (run cf0 office), O,
    (mkV (Some "n1") (Some (IDate 732500)) None None (Some "Fair") None None None None [] [] None None None None)%string.
  eexists. split; [apply run_reachable|]. split; [eexists; vm_compute; reflexivity|]. exists 3%nat.
  split; [vm_compute; reflexivity|]. split; [vm_compute; reflexivity|]. vm_compute. auto.
Qed.
Print Assumptions C66_again_refuted.
