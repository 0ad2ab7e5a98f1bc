(** What the stored events look like after a successful import. *)
From Verif Require Import Base PyDate DateFacts Recurrent CalTime TimeProofs Event Storage ICal System
  QueryProofs EventProofs SpecProofs SystemProofs IdProofs ImportProofs.
From Coq Require Import ZifyBool.
Ltac Zify.zify_post_hook ::= Z.div_mod_to_equations.
Local Opaque ord2ymd year_of month_of day_of ymd2ord days_in_month is_leap.

(** ** what a component says *)
(** the local wall-clock time denoted by a DTSTART or DTEND value *)
Definition local_time (tz : Z -> Z) (t : ical_time) (x : Z) : Prop :=
  match t with
  | IDate d => x = d * DAY
  | IFloat y => x = y
  | IAware y off => dt_ok (y - off) = true /\ dt_ok x = true /\ x - tz (y - off) = y - off    (* the same instant *)
  end.

Definition is_date (t : ical_time) : bool := match t with IDate _ => true | _ => false end.

(** start, duration (DTEND first, then DURATION) and whether it is a DATE *)
Definition says_times (tz : Z -> Z) (v : vevent) (s d : Z) (allday : bool) : Prop :=
  exists t0, v_dtstart v = Some t0 /\ local_time tz t0 s /\ allday = is_date t0
  /\ match v_dtend v, v_duration v with
     | Some t1, _ => local_time tz t1 (s + d)
     | None, Some x => d = x
     | None, None => d = 0
     end.

Definition text (o : option string) (default : string) : string := match o with Some x => x | None => default end.

(** everything but times, organizer and participants *)
Definition says_text (v : vevent) (e : event) : Prop :=
  e_title e = text (v_summary v) "" /\ e_description e = text (v_description v) ""
  /\ e_location e = text (v_location v) "" /\ e_status e = text (v_status v) "TENTATIVE"
  /\ (forall c, In c (e_categories e) <-> In c (v_categories v))
  /\ (e_transparent e = true <-> v_transp v = Some "TRANSPARENT"%string)
  /\ e_access e = text (v_class v) "PUBLIC" /\ e_document e = v_attach v
  /\ match v_rrule v with
     | None => e_recurrence e = None
     | Some rr => exists r r', e_recurrence e = Some r /\ import_rule rr = Ok r' /\ rule_eq r r' = true
     end.

(** the organizer named by the component if the source knows them, otherwise
    the calendar's main attendee *)
Definition says_organizer (known : string -> bool) (default : res attendee) (v : vevent) (o : attendee) : Prop :=
  match v_organizer v with
  | Some i => if known i then o = Some i else default = Ok o
  | None => default = Ok o
  end.

(** participation: what the last ATTENDEE line for an address says (status, role) *)
Fixpoint last_line (l : list (string * option string * option string)) (i : string) : option (option string * option string) :=
  match l with
  | [] => None
  | (j, ps, ro) :: r =>
      match last_line r i with
      | Some x => Some x
      | None => if String.eqb j i then Some (ps, ro) else None
      end
  end.

(** the status of [i]: from their line, or accepted for an organizer [o] without
    a line, or as before *)
Definition said_status (v : vevent) (o : attendee) (before : option string) (i : string) : option string :=
  match last_line (v_attendees v) i with
  | Some (ps, _) => Some (text ps "NEEDS-ACTION")
  | None => if opt_str_eqb o (Some i) then Some "ACCEPTED"%string else before
  end.

Definition said_role (v : vevent) (o : attendee) (before : option string) (i : string) : option string :=
  match last_line (v_attendees v) i with
  | Some (_, ro) => Some (text ro "REQ-PARTICIPANT")
  | None => if opt_str_eqb o (Some i) then Some "REQ-PARTICIPANT"%string else before
  end.

Definition all_known (known : string -> bool) (v : vevent) : Prop :=
  forall i ps ro, In (i, ps, ro) (v_attendees v) -> known i = true.

Definition all_roles (v : vevent) : Prop :=
  forall i ps ro, In (i, ps, ro) (v_attendees v) -> In (text ro "REQ-PARTICIPANT") roles.

(** the event [e'] made from [e]: it takes part who is said to, or nothing had to
    change but perhaps roles that were the default one *)
Definition parts_updated (known : string -> bool) (v : vevent) (e e' : event) : Prop :=
  all_known known v
  /\ (forall i, dget (e_state e') i = said_status v (e_organizer e') (dget (e_state e) i) i)
  /\ ((all_roles v /\ forall i, dget (e_role e') i = said_role v (e_organizer e') (dget (e_role e) i) i)
      \/ (e' = e /\ forall i, (last_line (v_attendees v) i <> None -> dget (e_role e) i = Some "REQ-PARTICIPANT"%string)
                            /\ (last_line (v_attendees v) i = None -> dget (e_role e) i = said_role v (e_organizer e') (dget (e_role e) i) i))).

Definition parts_created (known : string -> bool) (v : vevent) (e : event) : Prop :=
  all_known known v /\ all_roles v
  /\ forall i, dget (e_state e) i = said_status v (e_organizer e) None i /\ dget (e_role e) i = said_role v (e_organizer e) None i.

Lemma dtstart_duration_says tz v s d a : dtstart_duration tz v = Ok (s, d, a) -> says_times tz v s d a.
Proof.
  unfold dtstart_duration. destruct (v_dtstart v) as [t0|] eqn:ET; [|discriminate].
  assert (L : forall t x, float_time tz t = Ok x -> local_time tz t x).
  { intros [o|y|y off] x H; cbn in *; [unfold combine in H|congruence|].
    - assert (x = o * DAY + 0) by congruence. lia.
    - unfold dt_add in H. change (y + - off) with (y - off) in H. destruct (dt_ok (y - off)) eqn:O1; [|discriminate]. cbn [rbind] in H.
      destruct (dt_ok (y - off + tz (y - off))) eqn:O2; [|discriminate]. assert (x = y - off + tz (y - off)) by congruence. subst x.
      split; [reflexivity|]. split; [exact O2|lia]. }
  destruct (float_time tz t0) as [s0| |] eqn:E0; try discriminate. cbn [rbind]. intros H. exists t0. rewrite ET. cbn [is_date].
  split; [reflexivity|]. destruct (v_dtend v) as [t1|].
  - destruct (float_time tz t1) as [e1| |] eqn:E1; try discriminate. cbn [rbind] in H.
    assert (s = s0 /\ d = e1 - s0 /\ a = is_date t0) as (-> & -> & ->).
    { repeat split; destruct t0; cbn in *; congruence. }
    split; [now apply L|]. split; [reflexivity|]. apply L in E1. replace (s0 + (e1 - s0)) with e1 by lia. exact E1.
  - destruct (v_duration v) as [x|];
      (assert (s = s0 /\ a = is_date t0) as (-> & ->) by (split; destruct t0; cbn in *; congruence));
      (split; [now apply L|]; split; [reflexivity|]; congruence).
Qed.

Definition agrees_text (sp : spec) (e : event) : Prop :=
  e_title e = s_title sp /\ e_description e = s_description sp /\ e_location e = s_location sp /\ e_status e = s_status sp
  /\ (forall c, In c (e_categories e) <-> In c (s_categories sp))
  /\ e_transparent e = s_transparent sp /\ e_access e = s_access sp /\ e_document e = s_document sp
  /\ opt_rule_eqb (e_recurrence e) (s_recurrence sp) = true.

Lemma import_spec_says tz known default v sp : import_spec tz known default v = Ok sp ->
  (exists d, s_duration sp = Some d /\ says_times tz v (s_dtstart sp) d (s_allday sp))
  /\ says_organizer known default v (s_organizer sp)
  /\ forall e, agrees_text sp e -> says_text v e.
Proof.
  unfold import_spec. destruct (dtstart_duration tz v) as [[[s d] a]| |] eqn:E; try discriminate. cbn [rbind].
  assert (O : forall r, (match match v_organizer v with Some i => if known i then Some i else None | None => None end with
      | Some i => Ok (Some i) | None => default end) = Ok r -> says_organizer known default v r).
  { intros r. unfold says_organizer. destruct (v_organizer v) as [i|]; [|auto]. destruct (known i); [congruence|auto]. }
  match goal with |- rbind ?r _ = _ -> _ => destruct r as [org| |] eqn:EO; try discriminate end. cbn [rbind].
  match goal with |- rbind ?r _ = _ -> _ => destruct r as [rec| |] eqn:ER; try discriminate end. cbn [rbind].
  intros X. injection X as <-. cbn. split; [|split].
  - exists d. split; [reflexivity|]. now apply dtstart_duration_says.
  - now apply O.
  - intros e (A1 & A2 & A3 & A4 & A5 & A6 & A7 & A8 & A9). cbn in *.
    unfold says_text. rewrite A6. repeat (split; [assumption|]). split.
    { destruct (v_transp v) as [t|]; cbn; [rewrite String.eqb_eq; split; congruence|split; [discriminate|discriminate]]. }
    split; [assumption|]. split; [assumption|]. destruct (v_rrule v) as [rr|].
    + destruct (import_rule rr) as [r'| |] eqn:EI; try discriminate. cbn in ER. injection ER as <-.
      destruct (e_recurrence e) as [r|]; [|discriminate]. exists r, r'. auto.
    + injection ER as <-. destruct (e_recurrence e); [discriminate|reflexivity].
Qed.

Lemma opt_rule_refl o : opt_rule_eqb o o = true.
Proof. destruct o as [r|]; [|reflexivity]. cbn. now apply RecurMisc.rule_eq_tuple. Qed.

(** ** participants *)
Definition line_entry (known : string -> bool) (a : string * option string * option string) : entry :=
  let '(i, ps, ro) := a in ((if known i then Some i else None), text ro "REQ-PARTICIPANT", Some (text ps "NEEDS-ACTION")).

Lemma import_spec_entries tz known default v sp : import_spec tz known default v = Ok sp ->
  s_attendees sp = map (line_entry known) (v_attendees v).
Proof.
  unfold import_spec. destruct (dtstart_duration tz v) as [[[s d] a]| |]; try discriminate. cbn [rbind].
  match goal with |- rbind ?r _ = _ -> _ => destruct r as [org| |]; try discriminate end. cbn [rbind].
  match goal with |- rbind ?r _ = _ -> _ => destruct r as [rec| |]; try discriminate end. cbn [rbind].
  intros X. injection X as <-. cbn. apply map_ext. intros [[i ps] ro]. reflexivity.
Qed.

Lemma set_lines_ok known l : forall e e' n, set_attendees e (map (line_entry known) l) = (e', n, Ok tt) ->
  (forall i ps ro, In (i, ps, ro) l -> known i = true /\ In (text ro "REQ-PARTICIPANT") roles)
  /\ forall i, match last_line l i with
     | Some (ps, ro) => dget (e_state e') i = Some (text ps "NEEDS-ACTION") /\ dget (e_role e') i = Some (text ro "REQ-PARTICIPANT")
     | None => dget (e_state e') i = dget (e_state e) i /\ dget (e_role e') i = dget (e_role e) i
     end.
Proof.
  induction l as [|[[j ps] ro] l IH]; intros e e' n; cbn [map line_entry set_attendees last_line].
  - intros E. assert (e' = e) by congruence. subst. split; [intros i ps ro []|auto].
  - change (mbind (set_role e ?a ?b) (fun e1 => set_status_raw e1 ?a ?c)) with (entry_step e a b c).
    destruct (known j) eqn:K.
    2:{ unfold entry_step, set_role. destruct (str_in _ roles); intros E; discriminate E. }
    destruct (str_in (text ro "REQ-PARTICIPANT") roles) eqn:R.
    2:{ unfold entry_step, set_role. rewrite R. intros E; discriminate E. }
    apply str_in_iff in R.
    change (mbind (set_role e (Some j) (text ro "REQ-PARTICIPANT")) (fun e1 => set_status_raw e1 (Some j) (Some (text ps "NEEDS-ACTION"))))
      with (entry_step e (Some j) (text ro "REQ-PARTICIPANT") (Some (text ps "NEEDS-ACTION"))).
    rewrite entry_step_ok by exact R. rewrite mbind_ok. set (e1 := with_state _ _). intros E.
    assert (E2 : set_attendees e1 (map (line_entry known) l) = (e', n, Ok tt)).
    { destruct (set_attendees e1 (map (line_entry known) l)) as [[e2 n2] r2]. exact E. }
    destruct (IH e1 e' n E2) as [H1 H2]. split.
    + intros i ps' ro' [X|X]; [injection X as <- <- <-; auto|eauto].
    + intros i. specialize (H2 i). destruct (last_line l i) as [[ps' ro']|]; [exact H2|]. destruct H2 as [-> ->].
      subst e1. cbn. rewrite !dget_dset. destruct (String.eqb_spec i j) as [->|N].
      * rewrite String.eqb_refl. auto.
      * destruct (String.eqb_spec j i); [congruence|auto].
Qed.

Lemma opt_str_eqb_id o i : opt_str_eqb (Some o) (Some i) = String.eqb i o.
Proof.
  destruct (String.eqb_spec i o) as [->|N]; [now apply opt_str_eqb_eq|].
  destruct (opt_str_eqb (Some o) (Some i)) eqn:E; [|reflexivity]. apply opt_str_eqb_eq in E. congruence.
Qed.

Lemma set_on_object_parts tz kn df v sp e e' n : import_spec tz kn df v = Ok sp -> set_on_object sp e = (e', n, Ok tt) ->
  all_known kn v /\ all_roles v
  /\ (forall i, dget (e_state e') i = said_status v (e_organizer e') (dget (e_state e) i) i)
  /\ (forall i, dget (e_role e') i = said_role v (e_organizer e') (dget (e_role e) i) i).
Proof.
  intros ES E. assert (O : e_organizer e' = s_organizer sp).
  { destruct (set_on_object_attrs sp e) as (_ & _ & _ & _ & _ & _ & _ & _ & _ & _ & _ & _ & _ & O). rewrite E in O. exact O. }
  rewrite set_on_object_eq, (import_spec_entries _ _ _ _ _ ES) in E. destruct (set_lines_ok kn (v_attendees v) _ _ _ E) as [H1 H2].
  split; [intros i ps ro H; eapply H1; exact H|]. split; [intros i ps ro H; eapply H1; exact H|]. rewrite O.
  assert (B : forall i, dget (e_state (match s_organizer sp with Some i => organize (set_attrs sp e) i | None => with_organizer (set_attrs sp e) None end)) i
     = (if opt_str_eqb (s_organizer sp) (Some i) then Some "ACCEPTED"%string else dget (e_state e) i)
    /\ dget (e_role (match s_organizer sp with Some i => organize (set_attrs sp e) i | None => with_organizer (set_attrs sp e) None end)) i
     = (if opt_str_eqb (s_organizer sp) (Some i) then Some "REQ-PARTICIPANT"%string else dget (e_role e) i)).
  { intros i. destruct (s_organizer sp) as [o|]; [|auto]. rewrite opt_str_eqb_id. cbn. now rewrite !dget_dset. }
  split; intros i; specialize (H2 i); destruct (B i) as [B1 B2]; unfold said_status, said_role;
    destruct (last_line (v_attendees v) i) as [[ps ro]|]; try apply H2; destruct H2; congruence.
Qed.

Lemma last_line_in l i x : last_line l i = Some x -> In (i, fst x, snd x) l.
Proof.
  induction l as [|[[j ps] ro] l IH]; [discriminate|]. cbn. destruct (last_line l i) as [y|].
  - intros E. right. apply IH. exact E.
  - destruct (String.eqb_spec j i) as [->|]; [|discriminate]. intros E. injection E as <-. now left.
Qed.

Lemma no_modify_parts tz kn df v sp e : import_spec tz kn df v = Ok sp -> will_modify sp e = Ok false -> parts_updated kn v e e.
Proof.
  intros ES W. apply will_modify_false in W as (_ & (o & O1 & O2 & O3 & O4) & H). rewrite (import_spec_entries _ _ _ _ _ ES) in H.
  assert (L : forall i ps ro, In (i, ps, ro) (v_attendees v) -> kn i = true /\ dget (e_state e) i = Some (text ps "NEEDS-ACTION")
    /\ dget (e_role e) i = Some "REQ-PARTICIPANT"%string).
  { intros i ps ro Hi. apply (in_map (line_entry kn)) in Hi. destruct (H _ _ _ Hi) as (j & J & S & R).
    destruct (kn i); [|discriminate]. assert (i = j) by congruence. subst. auto. }
  split; [intros i ps ro Hi; eapply L; exact Hi|]. unfold said_status, said_role. rewrite O2.
  assert (A : forall i, (if opt_str_eqb (Some o) (Some i) then Some "ACCEPTED"%string else dget (e_state e) i) = dget (e_state e) i
     /\ (if opt_str_eqb (Some o) (Some i) then Some "REQ-PARTICIPANT"%string else dget (e_role e) i) = dget (e_role e) i).
  { intros i. rewrite opt_str_eqb_id. destruct (String.eqb_spec i o) as [->|]; auto. }
  split; [|right; split; [reflexivity|]].
  - intros i. destruct (last_line (v_attendees v) i) as [[ps ro]|] eqn:E; [|symmetry; apply A].
    apply last_line_in in E. now destruct (L _ _ _ E) as (_ & X & _).
  - intros i. destruct (last_line (v_attendees v) i) as [[ps ro]|] eqn:E.
    + split; [|discriminate]. intros _. apply last_line_in in E. now destruct (L _ _ _ E) as (_ & _ & X).
    + split; [congruence|]. intros _. symmetry. apply A.
Qed.

Lemma new_event_parts tz kn df v sp u e : import_spec tz kn df v = Ok sp -> new_event u sp = Ok e -> parts_created kn v e.
Proof.
  intros ES N. destruct (new_event_eq _ _ _ N) as (e0 & n & E0 & ->).
  destruct (set_on_object_parts tz kn df v sp (blank u) e0 n ES E0) as (H1 & H2 & H3 & H4).
  assert (A : e_state (if s_allday sp then allday_adjust e0 else e0) = e_state e0
    /\ e_role (if s_allday sp then allday_adjust e0 else e0) = e_role e0
    /\ e_organizer (if s_allday sp then allday_adjust e0 else e0) = e_organizer e0).
  { destruct (s_allday sp); [|auto]. unfold allday_adjust. destruct (e_duration e0); auto. }
  destruct A as (A1 & A2 & A3). split; [exact H1|]. split; [exact H2|]. intros i. rewrite A1, A2, A3. split; [apply H3|apply H4].
Qed.

(** ** one component *)
(** the outcome for the component's id: updated, new, or somebody else's *)
Definition updated (tz : Z -> Z) (v : vevent) (e : event) : Prop :=
  (exists d, e_duration e = Some d /\ says_times tz v (e_dtstart e) d (e_allday e)) /\ says_text v e.

Definition created (tz : Z -> Z) (v : vevent) (e : event) : Prop :=
  exists s d a, says_times tz v s d a /\ says_text v e /\ e_allday e = a
  /\ if a then e_dtstart e = s / DAY * DAY
             /\ (0 <= d -> exists k, e_duration e = Some (k * DAY) /\ 1 <= k /\ d <= k * DAY /\ forall j, 1 <= j -> d <= j * DAY -> k <= j)
     else e_dtstart e = s /\ e_duration e = Some d.

Lemma set_on_object_updated tz kn df v sp e : import_spec tz kn df v = Ok sp -> updated tz v (mev (set_on_object sp e))
  /\ e_organizer (mev (set_on_object sp e)) = s_organizer sp.
Proof.
  intros E. destruct (import_spec_says _ _ _ _ _ E) as ((d & D & T) & O & X).
  destruct (set_on_object_attrs sp e) as (U & A1 & A2 & A3 & A4 & A5 & A6 & A7 & A8 & A9 & A10 & A11 & A12 & A13).
  split; [|exact A13]. split.
  - exists d. rewrite A2, A1, A8. auto.
  - apply X. unfold agrees_text. rewrite A7. repeat (split; [assumption|]).
    split; [intros c; now rewrite A9|]. repeat (split; [assumption|]). apply opt_rule_refl.
Qed.

Lemma new_event_created tz kn df v sp u e : import_spec tz kn df v = Ok sp -> new_event u sp = Ok e ->
  created tz v e /\ e_organizer e = s_organizer sp /\ e_uid e = u.
Proof.
  intros E N. pose proof (new_event_uid _ _ _ N) as NU. destruct (new_event_eq _ _ _ N) as (e0 & n & E0 & ->).
  destruct (set_on_object_updated tz kn df v sp (blank u) E) as [((d & D & T) & X) O]. rewrite E0 in *. unfold mev in *. cbn [fst] in *.
  destruct (set_on_object_attrs sp (blank u)) as (_ & A1 & A2 & _ & _ & _ & _ & _ & A8 & _). rewrite E0 in *. unfold mev in *. cbn [fst] in *.
  split; [|split; [|exact NU]].
  - exists (e_dtstart e0), d, (e_allday e0). split; [exact T|]. rewrite <- A8 in *. destruct (e_allday e0) eqn:A.
    + destruct (allday_rest e0) as (_ & R1 & R2 & R3 & R4 & R5 & R6 & R7 & R8 & R9 & R10 & _). split; [|split; [congruence|]].
      * unfold says_text in *. now rewrite R1, R2, R3, R4, R5, R7, R8, R9, R10.
      * destruct (allday_spec e0) as (S1 & S2 & S3). split; [exact S1|]. intros P. now apply S3.
    + auto.
  - destruct (s_allday sp); [|exact O]. destruct (allday_rest e0) as (_ & _ & _ & _ & _ & _ & _ & _ & _ & _ & _ & R & _). congruence.
Qed.

(** ** frames for one component *)
Lemma frame_mono k1 k2 u1 u2 s s' : (forall u, In u k1 -> In u k2) -> (forall u, In u u1 -> In u u2) ->
  frame k1 u1 s s' -> frame k2 u2 s s'.
Proof.
  intros K U (F1 & F2 & F3 & F4 & F5 & F6). split; [|split; [|split; [|split; [|split]]]]; auto.
  intros u r A B. destruct (F3 u r A B). auto.
Qed.

Lemma import_one_frame1 cf s c known v : frame (import_uids [v]) (import_uids [v]) s (sst (import_one cf s c known v)).
Proof.
  unfold import_one, import_uids. cbn [flat_map]. destruct (v_uid v) as [uid|]; [|apply frame_refl]. cbn [app].
  destruct (str_in uid known) eqn:K.
  - apply (sbind_T (frameT [uid] [uid]) _ _ s (frameT_trans _ _)).
    + apply import_existing_frame. now left.
    + intros [] _. apply frame_refl.
  - destruct (has_event s uid) eqn:E; [apply frame_refl|].
    apply (sbind_T (frameT [uid] [uid]) _ _ s (frameT_trans _ _)).
    + unfold import_new. rewrite sbind_slift. destruct (import_spec _ _ _ v) as [sp| |]; try apply frame_refl.
      apply (sbind_T (frameT [uid] [uid]) _ _ s (frameT_trans _ _)); [apply create_frame; cbn; auto|]. intros r _. apply frame_refl.
    + intros [] _. apply frame_refl.
Qed.

Lemma import_loop_frame1 cf c known l : forall s, frame (import_uids l) (import_uids l) s (sst (import_loop cf s c known l)).
Proof.
  induction l as [|v l IH]; intros s; [apply frame_refl|]. cbn [import_loop].
  assert (S1 : forall u, In u (import_uids [v]) -> In u (import_uids (v :: l))).
  { intros u. unfold import_uids. cbn [flat_map]. rewrite app_nil_r. intros H. apply in_or_app. now left. }
  assert (S2 : forall u, In u (import_uids l) -> In u (import_uids (v :: l))).
  { intros u. unfold import_uids. cbn [flat_map]. intros H. apply in_or_app. now right. }
  apply (sbind_T (frameT (import_uids (v :: l)) (import_uids (v :: l))) _ _ s (frameT_trans _ _)).
  - eapply frame_mono; [exact S1|exact S1|]. apply import_one_frame1.
  - intros uid _. apply (sbind_T (frameT (import_uids (v :: l)) (import_uids (v :: l))) _ _ _ (frameT_trans _ _)).
    + eapply frame_mono; [exact S2|exact S2|]. apply IH.
    + intros us _. apply frame_refl.
Qed.

(** what is stored under an id that the text does not mention stays as it is *)
Lemma frame_other k us s s' u : store_inv s -> frame k us s s' -> ~ In u k -> ~ In u us ->
  dget (sys_store s') u = dget (sys_store s) u
  /\ forall r, dget (sys_store s) u = Some r -> obj s' r = obj s r.
Proof.
  intros [_ I] (F1 & F2 & F3 & _) NK NU. split.
  - destruct (dget (sys_store s) u) as [r|] eqn:D; [now apply F2|].
    destruct (dget (sys_store s') u) as [r|] eqn:D'; [|reflexivity]. destruct (F3 u r D' D). contradiction.
  - intros r D. destruct (I u r D) as (L & U & _). apply F1; [exact L|]. intros w W X. destruct (I w r X) as (_ & U' & _).
    assert (w = u) by congruence. now subst.
Qed.

(** ** the loop *)
Definition outcome (cf : config) (s : system) (c : nat) (known : list string) (v : vevent) (u : string) (s' : system) : Prop :=
  exists r, dget (sys_store s') u = Some r
  /\ ((In u known /\ updated (cf_tz cf) v (obj s' r)
        /\ says_organizer (source_knows s) (main_attendee s c) v (e_organizer (obj s' r))
        /\ dget (sys_store s) u = Some r /\ parts_updated (source_knows s) v (obj s r) (obj s' r))
      \/ (~ In u known /\ dget (sys_store s) u = None /\ created (cf_tz cf) v (obj s' r)
        /\ says_organizer (source_knows s) (main_attendee s c) v (e_organizer (obj s' r))
        /\ parts_created (source_knows s) v (obj s' r))
      \/ (~ In u known /\ dget (sys_store s) u = Some r /\ obj s' r = obj s r)).

Lemma same_source s s' c : sys_source s' = sys_source s -> sys_cals s' = sys_cals s ->
  source_knows s' = source_knows s /\ main_attendee s' c = main_attendee s c.
Proof. intros E1 E2. unfold source_knows, main_attendee, cal, source_get. rewrite E1, E2. auto. Qed.

Lemma import_one_outcome cf s c known v u : store_inv s -> (forall k, In k known -> has_event s k = true) ->
  srs (import_one cf s c known v) = Ok u -> v_uid v = Some u /\ outcome cf s c known v u (sst (import_one cf s c known v)).
Proof.
  intros I KN E0. destruct (import_one_ok cf s c known v u KN E0) as [V _]. split; [exact V|]. revert E0.
  unfold import_one. rewrite V. destruct (str_in u known) eqn:K.
  - apply str_in_iff in K. intros E. apply sbind_inv_ok in E as ([] & E1 & _ & E3 & _). rewrite E3.
    unfold sst at 1. cbn [sret fst]. clear E3. revert E1. unfold import_existing. rewrite sbind_slift.
    specialize (KN u K). rewrite has_event_dget in KN. unfold get_event. destruct (dget (sys_store s) u) as [r|] eqn:D; [|discriminate].
    destruct I as [_ I]. destruct (I u r D) as (L & U & _).
    rewrite sbind_slift. destruct (import_spec _ _ _ v) as [sp| |] eqn:ES; try discriminate.
    destruct (import_spec_says _ _ _ _ _ ES) as ((d & SD & ST) & SO & SX).
    rewrite sbind_slift. destruct (will_modify sp (obj s r)) as [[|]| |] eqn:W; try discriminate.
    + intros E1. apply sbind_inv_ok in E1 as ([] & E4 & _ & E5 & _). rewrite E5. unfold sst at 1. cbn [fst].
      unfold on_event in E4 |- *. destruct (set_on_object sp (obj s r)) as [[e1 n1] r1] eqn:SOO. unfold sst. cbn [fst].
      exists r. split; [exact D|]. left. split; [exact K|].
      rewrite obj_heap, replace_nth_get. rewrite Nat.eqb_refl. apply Nat.ltb_lt in L. rewrite L. cbn [andb].
      destruct (set_on_object_updated _ _ _ _ _ (obj s r) ES) as [Q1 Q2]. rewrite SOO in Q1, Q2. unfold mev in Q1, Q2. cbn [fst] in Q1, Q2.
      split; [exact Q1|]. rewrite Q2. split; [exact SO|]. split; [exact D|].
      assert (R1 : r1 = Ok tt) by exact E4. subst r1.
      destruct (set_on_object_parts _ _ _ _ _ (obj s r) _ _ ES SOO) as (P1 & P2 & P3 & P4). split; [exact P1|]. split; [exact P3|]. left. auto.
    + intros _. unfold sst. cbn [sret fst]. exists r. split; [exact D|]. left. split; [exact K|].
      pose proof (no_modify_parts _ _ _ _ _ _ ES W) as NP.
      apply will_modify_false in W as (A & (o & O1 & O2 & _) & _).
      destruct A as (A1 & A2 & A3 & A4 & A5 & A6 & A7 & A8 & A9 & A10 & A11 & A12). split.
      * split; [exists d; rewrite A1, A2, A8; auto|]. apply SX. unfold agrees_text. repeat (split; [assumption|]). assumption.
      * rewrite O2, <- O1. split; [exact SO|]. split; [exact D|exact NP].
  - assert (NK : ~ In u known) by (intros X; apply str_in_iff in X; congruence).
    rewrite has_event_dget. destruct (dget (sys_store s) u) as [r|] eqn:D.
    + intros _. unfold sst. cbn [sret fst]. exists r. split; [exact D|]. right; right. auto.
    + intros E. apply sbind_inv_ok in E as ([] & E1 & _ & E3 & _). rewrite E3. unfold sst at 1. cbn [sret fst]. clear E3.
      revert E1. unfold import_new. rewrite sbind_slift. destruct (import_spec _ _ _ v) as [sp| |] eqn:ES; try discriminate.
      destruct (import_spec_says _ _ _ _ _ ES) as (_ & SO & _).
      intros E1. apply sbind_inv_ok in E1 as (r & E4 & _ & E5 & _). rewrite E5. unfold sst at 1. cbn [sret fst].
      destruct (create_spec cf s (Some u) sp 0) as [(r' & e & -> & R & NE & _)|(_ & _ & X)]; [|now apply X in E4].
      unfold sst. cbn [fst]. exists r'. cbn [sys_store]. rewrite dget_dset, String.eqb_refl. split; [reflexivity|].
      right; left. split; [exact NK|]. split; [exact D|].
      assert (OB : obj (mkSys (sys_heap s ++ [e]) (dset (sys_store s) u r') (sys_source s) (sys_cals s)) r' = e).
      { unfold obj. cbn [sys_heap]. rewrite R. rewrite app_nth2 by lia. now rewrite Nat.sub_diag. }
      rewrite OB. destruct (new_event_created _ _ _ _ _ _ _ ES NE) as (C1 & C2 & _). split; [exact C1|]. rewrite C2. split; [exact SO|].
      exact (new_event_parts _ _ _ _ _ _ _ ES NE).
Qed.

Lemma import_loop_outcome cf c known l : forall s us, store_inv s -> (forall k, In k known -> has_event s k = true) ->
  NoDup (import_uids l) -> srs (import_loop cf s c known l) = Ok us ->
  forall v u, In v l -> v_uid v = Some u -> outcome cf s c known v u (sst (import_loop cf s c known l)).
Proof.
  induction l as [|w l IH]; intros s us I KN ND E v u Hv V; [destruct Hv|]. cbn [import_loop] in *.
  apply sbind_inv_ok in E as (uw & E1 & E2 & E3 & _). rewrite E3. clear E3.
  destruct (import_one_outcome cf s c known w uw I KN E1) as [W OW].
  pose proof (import_one_frame1 cf s c known w) as F1.
  pose proof (import_one_tracks cf s c known w I) as (I1 & _).
  set (s1 := sst (import_one cf s c known w)) in *.
  apply sbind_inv_ok in E2 as (us' & E4 & _ & E6 & _). rewrite E6. unfold sst at 1. cbn [sret fst]. clear E6.
  assert (ND' : ~ In uw (import_uids l) /\ NoDup (import_uids l)).
  { unfold import_uids in ND. cbn [flat_map] in ND. rewrite W in ND. cbn [app] in ND. now inversion ND. }
  destruct ND' as [N1 N2]. unfold import_uids in F1. cbn [flat_map] in F1. rewrite W in F1. cbn [app] in F1.
  pose proof (import_loop_frame1 cf c known l s1) as F2.
  set (s2 := sst (import_loop cf s1 c known l)) in *.
  destruct Hv as [->|Hv].
  - assert (uw = u) by congruence. subst uw. destruct OW as (r & D & O).
    destruct (frame_other _ _ s1 s2 u I1 F2 N1 N1) as [G1 G2]. exists r. rewrite G1, (G2 r D). auto.
  - assert (NU : u <> uw).
    { intros ->. apply N1. unfold import_uids. apply in_flat_map. exists v. rewrite V. split; [exact Hv|now left]. }
    assert (KN1 : forall k, In k known -> has_event s1 k = true).
    { intros k Hk. eapply frame_has; [exact F1|auto]. }
    destruct (IH s1 us' I1 KN1 N2 E4 v u Hv V) as (r & D & O). exists r. split; [exact D|].
    assert (NI : ~ In u [uw]) by (intros [X|[]]; congruence).
    destruct (frame_other _ _ s s1 u I F1 NI NI) as [G1 G2].
    destruct F1 as (_ & _ & _ & _ & FS & FC). destruct (same_source s s1 c FS FC) as [SK SM]. rewrite SK, SM, G1 in O.
    destruct O as [(O1 & O2 & O3 & O4 & O5)|[O|(O1 & O2 & O3)]]; [|right; now left|].
    { left. split; [exact O1|]. split; [exact O2|]. split; [exact O3|]. split; [exact O4|]. rewrite <- (G2 r O4). exact O5. }
    right; right.
    split; [exact O1|]. split; [exact O2|]. transitivity (obj s1 r); [exact O3|now apply G2].
Qed.

(** ** the whole import *)
Lemma import_outcome cf s c vs p cr sync : store_inv s -> NoDup (import_uids vs) ->
  srs (import_cal cf s c (Ok (Some vs)) p cr sync) = Ok tt ->
  forall v u, In v vs -> v_uid v = Some u ->
  exists r, let s' := sst (import_cal cf s c (Ok (Some vs)) p cr sync) in dget (sys_store s') u = Some r
   /\ ((visible s c p cr u /\ updated (cf_tz cf) v (obj s' r)
        /\ says_organizer (source_knows s) (main_attendee s c) v (e_organizer (obj s' r))
        /\ dget (sys_store s) u = Some r /\ parts_updated (source_knows s) v (obj s r) (obj s' r))
      \/ (dget (sys_store s) u = None /\ created (cf_tz cf) v (obj s' r)
        /\ says_organizer (source_knows s) (main_attendee s c) v (e_organizer (obj s' r))
        /\ parts_created (source_knows s) v (obj s' r))
      \/ (~ visible s c p cr u /\ dget (sys_store s) u = Some r /\ obj s' r = obj s r)).
Proof.
  intros I ND. destruct (import_cases cf s c (Ok (Some vs)) p cr sync) as [(evs & vs' & E1 & E2 & ->)|(_ & _ & ER)].
  2:{ intros X. now elim (ER vs eq_refl). }
  assert (vs' = vs) by congruence. subst vs'. set (known := nodup string_dec (map e_uid evs)).
  assert (KN : forall k, In k known -> has_event s k = true) by (apply (known_stored s c p cr evs I E1)).
  assert (VIS : forall u, visible s c p cr u <-> In u known).
  { intros u. unfold known. rewrite known_in. split.
    - intros (evs' & e & X & Y & Z). assert (evs' = evs) by congruence. subst. eauto.
    - intros (e & Y & Z). exists evs, e. auto. }
  intros R v u Hv V. apply sbind_inv_ok in R as (ical & R1 & _ & R2 & _). rewrite R2. clear R2.
  destruct (import_loop_ok cf c known vs s ical KN R1) as (IC & _ & _).
  destruct (import_loop_outcome cf c known vs s ical I KN ND R1 v u Hv V) as (r & D & O).
  pose proof (import_loop_tracks cf c known vs s I) as (I1 & _).
  set (s1 := sst (import_loop cf s c known vs)) in *.
  assert (LAST : exists s', sst (if sync then delete_loop s1 (filter (fun u => negb (str_in u ical)) known) else sret s1 tt) = s'
    /\ dget (sys_store s') u = Some r /\ obj s' r = obj s1 r).
  { eexists. split; [reflexivity|]. destruct sync; [|auto].
    destruct (delete_loop_ok (filter (fun u => negb (str_in u ical)) known) s1 I1) as (s' & DL & D1 & _ & _ & D4).
    - apply NoDup_filter. apply NoDup_nodup.
    - intros w W. apply filter_In in W as [W _]. eapply frame_has; [apply (import_loop_frame known (import_uids vs)); auto|auto].
    - rewrite DL. unfold sst. cbn [fst]. rewrite D4.
      assert (S : str_in u (filter (fun u => negb (str_in u ical)) known) = false).
      { destruct (str_in u _) eqn:S; [|reflexivity]. apply str_in_iff, filter_In in S as [_ S].
        rewrite IC in S. assert (X : str_in u (import_uids vs) = true).
        { apply str_in_iff. unfold import_uids. apply in_flat_map. exists v. rewrite V. split; [exact Hv|now left]. }
        rewrite X in S. discriminate S. }
      rewrite S. split; [exact D|]. unfold obj. now rewrite D1. }
  destruct LAST as (s' & -> & D' & O'). exists r. cbv zeta. split; [exact D'|]. rewrite O'.
  destruct O as [(O1 & O)|[(O1 & O)|(O1 & O)]].
  - left. split; [now apply VIS|exact O].
  - right; left. exact O.
  - right; right. split; [now rewrite VIS|exact O].
Qed.
