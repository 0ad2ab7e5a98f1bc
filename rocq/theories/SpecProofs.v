(** Facts about applying a specification to an event (setOnObject, willModify)
    and about newly built events. *)
From Verif Require Import Base PyDate DateFacts Recurrent CalTime TimeProofs Event Storage QueryProofs EventProofs.
From Coq Require Import ZifyBool.
Ltac Zify.zify_post_hook ::= Z.div_mod_to_equations.
Local Opaque ord2ymd year_of month_of day_of ymd2ord days_in_month is_leap.

(** * Preservation *)
Definition organize (e : event) (i : string) : event :=
  with_organizer (with_role (with_state e (dset (e_state e) i "ACCEPTED"%string))
                            (dset (e_role e) i "REQ-PARTICIPANT"%string)) (Some i).

Definition entry_step (e : event) (a : attendee) (ro : string) (st : option string) : mut :=
  mbind (set_role e a ro) (fun e1 => set_status_raw e1 a st).

Lemma set_on_object_eq s e :
  set_on_object s e =
  set_attendees (match s_organizer s with
                 | Some i => organize (set_attrs s e) i
                 | None => with_organizer (set_attrs s e) None
                 end) (s_attendees s).
Proof.
  unfold set_on_object. destruct (s_organizer s) as [i|].
  - cbn [mbind set_status_raw attendee_id set_role str_in existsb roles app]. 
    replace (set_role (with_state (set_attrs s e) (dset (e_state (set_attrs s e)) i "ACCEPTED"%string)) (Some i) "REQ-PARTICIPANT")
      with (with_role (with_state (set_attrs s e) (dset (e_state (set_attrs s e)) i "ACCEPTED"%string))
              (dset (e_role (set_attrs s e)) i "REQ-PARTICIPANT"%string), @nil notification, @Ok unit tt) by reflexivity.
    cbn [mbind app]. unfold organize. destruct (set_attendees _ _) as [[e' n'] r']. reflexivity.
  - cbn [mbind]. destruct (set_attendees _ _) as [[e' n'] r']. reflexivity.
Qed.

Lemma set_attendees_pres (P : event -> Prop) l :
  (forall e a ro st, In (a, ro, st) l -> P e -> P (mev (entry_step e a ro st))) ->
  forall e, P e -> P (mev (set_attendees e l)).
Proof.
  induction l as [|[[a ro] st] l IH]; intros H e He; [exact He|]. cbn [set_attendees].
  apply mbind_pres; [apply (H e a ro st); [now left|exact He]|].
  intros e2 H2. apply IH; [|exact H2]. intros. apply H; [now right|assumption].
Qed.

Lemma set_on_object_pres (P : event -> Prop) s :
  (forall e, P e -> P (set_attrs s e)) ->
  (forall e i, s_organizer s = Some i -> P e -> P (organize e i)) ->
  (forall e, s_organizer s = None -> P e -> P (with_organizer e None)) ->
  (forall e a ro st, In (a, ro, st) (s_attendees s) -> P e -> P (mev (entry_step e a ro st))) ->
  forall e, P e -> P (mev (set_on_object s e)).
Proof.
  intros H1 H2 H3 H4 e He. rewrite set_on_object_eq. apply set_attendees_pres; [exact H4|].
  destruct (s_organizer s) as [i|]; auto.
Qed.

Lemma new_event_eq uid s e : new_event uid s = Ok e ->
  exists e0 n, set_on_object s (blank uid) = (e0, n, Ok tt)
               /\ e = if s_allday s then allday_adjust e0 else e0.
Proof.
  unfold new_event. destruct (set_on_object s (blank uid)) as [[e0 n] r] eqn:E. destruct r as [[]| |]; try discriminate.
  intros X. injection X as <-. exists e0, n. split; [reflexivity|].
  assert (A : e_allday (mev (set_on_object s (blank uid))) = s_allday s).
  { rewrite set_on_object_eq. apply (set_attendees_pres (fun e => e_allday e = s_allday s)).
    - intros e a ro st _ H. unfold entry_step. apply (mbind_pres (fun e => e_allday e = s_allday s)).
      + destruct (set_role_attrs e a ro) as (_ & _ & _ & _ & _ & _ & _ & _ & A & _). congruence.
      + intros e1 H1. destruct (set_raw_attrs e1 a st) as (_ & _ & _ & _ & _ & _ & _ & _ & A & _). congruence.
    - destruct (s_organizer s); reflexivity. }
  rewrite E in A. unfold mev in A. cbn in A. now rewrite A.
Qed.

Lemma new_event_pres (P : event -> Prop) s uid e :
  (forall e, P e -> P (mev (set_on_object s e))) -> (forall e, P e -> P (allday_adjust e)) ->
  P (blank uid) -> new_event uid s = Ok e -> P e.
Proof.
  intros H1 H2 H3 E. destruct (new_event_eq _ _ _ E) as (e0 & n & E0 & ->).
  specialize (H1 _ H3). rewrite E0 in H1. unfold mev in H1. cbn in H1. destruct (s_allday s); auto.
Qed.

(** ** the attributes *)
Lemma set_attendees_attrs l e : same_attrs e (mev (set_attendees e l)).
Proof.
  apply (set_attendees_pres (same_attrs e)); [|apply same_attrs_refl].
  intros e1 a ro st _ H. unfold entry_step. apply mbind_pres.
  - eapply same_attrs_trans; [exact H|apply set_role_attrs].
  - intros e2 H2. eapply same_attrs_trans; [exact H2|apply set_raw_attrs].
Qed.

Lemma set_attendees_notes l : forall e, mnotes (set_attendees e l) = [].
Proof.
  induction l as [|[[a ro] st] l IH]; intros e; [reflexivity|]. cbn [set_attendees].
  pose proof (set_role_notes e a ro) as N1. destruct (set_role e a ro) as [[e1 n1] r1]. unfold mnotes in N1. cbn in N1. subst n1.
  unfold mbind at 2. destruct r1 as [[]| |]; [|reflexivity|reflexivity].
  pose proof (set_raw_notes e1 a st) as N2. destruct (set_status_raw e1 a st) as [[e2 n2] r2]. unfold mnotes in N2. cbn in N2. subst n2.
  cbn [mbind app]. destruct r2 as [[]| |]; [|reflexivity|reflexivity].
  specialize (IH e2). destruct (set_attendees e2 l) as [[e3 n3] r3]. exact IH.
Qed.

Lemma set_on_object_notes s e : mnotes (set_on_object s e) = [].
Proof. rewrite set_on_object_eq. apply set_attendees_notes. Qed.

(** what the object looks like after the call, participation aside *)
Lemma set_on_object_attrs s e : let e' := mev (set_on_object s e) in
  e_uid e' = e_uid e /\ e_dtstart e' = s_dtstart s /\ e_duration e' = s_duration s /\ e_title e' = s_title s
  /\ e_description e' = s_description s /\ e_location e' = s_location s /\ e_status e' = s_status s
  /\ e_recurrence e' = s_recurrence s /\ e_allday e' = s_allday s /\ e_categories e' = s_categories s
  /\ e_transparent e' = s_transparent s /\ e_access e' = s_access s /\ e_document e' = s_document s
  /\ e_organizer e' = s_organizer s.
Proof.
  cbv zeta. rewrite set_on_object_eq.
  match goal with |- context [set_attendees ?x ?l] => pose proof (set_attendees_attrs l x) as A; set (e' := mev (set_attendees x l)) in * end.
  unfold same_attrs in A. decompose [and] A. clear A.
  destruct (s_organizer s) as [i|] eqn:O; cbn in *; repeat split; assumption.
Qed.

Lemma set_on_object_uid s e : e_uid (mev (set_on_object s e)) = e_uid e.
Proof. apply (set_on_object_attrs s e). Qed.

Lemma new_event_uid uid s e : new_event uid s = Ok e -> e_uid e = uid.
Proof.
  intros E. destruct (new_event_eq _ _ _ E) as (e0 & n & E0 & ->).
  pose proof (set_on_object_uid s (blank uid)) as U. rewrite E0 in U. unfold mev in U. cbn in U.
  destruct (s_allday s); [|exact U]. destruct (allday_rest e0) as (X & _). congruence.
Qed.

(** ** the invariants *)
Definition roles_documented (e : event) : Prop := forall i ro, dget (e_role e) i = Some ro -> In ro roles.
Definition statuses_documented (e : event) : Prop := forall i st, dget (e_state e) i = Some st -> In st statuses.

Lemma mbind_pres2 (P Q : event -> Prop) m f : P (mev m) -> (mres m = Ok tt -> Q (mev m)) ->
  (forall e, Q e -> P (mev (f e))) -> P (mev (mbind m f)).
Proof.
  destruct m as [[e n] r]. unfold mbind, mev at 1 2, mres. cbn [fst snd]. intros H1 H2 H3.
  destruct r as [[]| |]; try exact H1. specialize (H3 e (H2 eq_refl)).
  unfold mev in *. destruct (f e) as [[e' n'] r']. exact H3.
Qed.

Lemma allday_role e : e_role (allday_adjust e) = e_role e.
Proof. unfold allday_adjust. destruct (e_duration e); reflexivity. Qed.
Lemma allday_state e : e_state (allday_adjust e) = e_state e.
Proof. unfold allday_adjust. destruct (e_duration e); reflexivity. Qed.
Lemma allday_uid e : e_uid (allday_adjust e) = e_uid e.
Proof. unfold allday_adjust. destruct (e_duration e); reflexivity. Qed.

Lemma organize_dicts e i : dicts_ok e -> dicts_ok (organize e i).
Proof. intros [D1 D2]. split; cbn; now apply dset_nodup. Qed.

Lemma entry_dicts e a ro st : dicts_ok e -> dicts_ok (mev (entry_step e a ro st)).
Proof.
  intros D. unfold entry_step. apply mbind_pres; [now apply set_role_dicts|]. intros e1 D1. now apply set_raw_dicts.
Qed.

Lemma set_on_object_dicts s e : dicts_ok e -> dicts_ok (mev (set_on_object s e)).
Proof.
  apply set_on_object_pres; auto using organize_dicts, entry_dicts.
Qed.

Lemma raw_none_role_sub e i j v : dicts_ok e ->
  dget (e_role (mev (set_status_raw e (Some i) None))) j = Some v -> dget (e_role e) j = Some v.
Proof.
  intros [D1 D2]. unfold set_status_raw, ddel. cbn [attendee_id]. destruct (dget (e_state e) i); [|auto].
  cbn [e_role with_state]. destruct (dget (e_role e) i) eqn:R; [|auto]. unfold mev; cbn.
  rewrite dget_drem by assumption. destruct (String.eqb j i); [discriminate|auto].
Qed.

Lemma raw_none_state_sub e i j v : dicts_ok e ->
  dget (e_state (mev (set_status_raw e (Some i) None))) j = Some v -> dget (e_state e) j = Some v.
Proof.
  intros [D1 D2]. unfold set_status_raw, ddel. cbn [attendee_id]. destruct (dget (e_state e) i) eqn:S; [|auto].
  cbn [e_role with_state]. destruct (dget (e_role e) i) eqn:R; unfold mev; cbn;
    rewrite dget_drem by assumption; destruct (String.eqb j i); auto; discriminate.
Qed.

(** roles *)
Definition roles_ok (e : event) : Prop := dicts_ok e /\ roles_documented e.

Lemma set_raw_roles e a st : roles_ok e -> roles_ok (mev (set_status_raw e a st)).
Proof.
  intros [D R]. split; [now apply set_raw_dicts|]. destruct a as [i|]; [|exact R]. destruct st as [s|]; [exact R|].
  intros j ro H. apply raw_none_role_sub in H; [eauto|exact D].
Qed.

Lemma set_role_roles e a ro : roles_ok e -> roles_ok (mev (set_role e a ro)).
Proof.
  intros [D R]. split; [now apply set_role_dicts|]. unfold set_role.
  destruct (str_in ro roles) eqn:X; [|exact R]. destruct a as [i|]; [|exact R]. apply str_in_iff in X.
  intros j ro' H. unfold mev in H. cbn in H. rewrite dget_dset in H.
  destruct (String.eqb j i); [|eauto]. injection H as <-. exact X.
Qed.

Lemma set_status_roles e a st : roles_ok e -> roles_ok (mev (set_status e a st)).
Proof.
  intros D. destruct (set_status_cases e a st) as [(-> & _)|[(-> & _)|[(i & _ & -> & _)|(i & _ & _ & _ & ->)]]];
    try exact D.
  apply mbind_pres; [now apply set_raw_roles|]. intros e' H. exact H.
Qed.

Lemma organize_roles e i : roles_ok e -> roles_ok (organize e i).
Proof.
  intros [D R]. split; [now apply organize_dicts|]. intros j ro. cbn. rewrite dget_dset.
  destruct (String.eqb j i); [|apply R]. intros E. injection E as <-. right; now left.
Qed.

Lemma set_on_object_roles s e : roles_ok e -> roles_ok (mev (set_on_object s e)).
Proof.
  apply set_on_object_pres; auto using organize_roles.
  intros e1 a ro st _ H. unfold entry_step. apply mbind_pres; [now apply set_role_roles|].
  intros e2 H2. now apply set_raw_roles.
Qed.

Lemma invite_roles l e : roles_ok e -> roles_ok (mev (invite e l)).
Proof.
  apply (invite_pres roles_ok). intros e1 i [[D1 D2] R] _. split; [split; cbn; now apply dset_nodup|].
  intros j ro. cbn. rewrite dget_dset. destruct (String.eqb j i); [|apply R]. intros E. injection E as <-. right; now left.
Qed.

(** statuses, as far as specifications carry documented ones *)
Definition spec_statuses_ok (s : spec) : Prop :=
  forall a ro st, In (a, ro, Some st) (s_attendees s) -> In st statuses.
Definition statuses_ok (e : event) : Prop := dicts_ok e /\ statuses_documented e.

Lemma set_raw_statuses e a st : known_status st -> statuses_ok e -> statuses_ok (mev (set_status_raw e a st)).
Proof.
  intros K [D R]. split; [now apply set_raw_dicts|]. destruct a as [i|]; [|exact R]. destruct st as [s|].
  - intros j ro. unfold mev. cbn. rewrite dget_dset. destruct (String.eqb j i); [|apply R]. intros E. injection E as <-. exact K.
  - intros j ro H. apply raw_none_state_sub in H; [eauto|exact D].
Qed.

Lemma set_role_statuses e a ro : statuses_ok e -> statuses_ok (mev (set_role e a ro)).
Proof. intros [D R]. split; [now apply set_role_dicts|]. unfold statuses_documented. now rewrite set_role_state. Qed.

Lemma set_status_statuses e a st : statuses_ok e -> statuses_ok (mev (set_status e a st)).
Proof.
  intros D. destruct (set_status_cases e a st) as [(-> & _)|[(-> & _)|[(i & _ & -> & _)|(i & _ & K & _ & ->)]]];
    try exact D.
  apply mbind_pres; [now apply set_raw_statuses|]. intros e' H. exact H.
Qed.

Lemma set_on_object_statuses s e : spec_statuses_ok s -> statuses_ok e -> statuses_ok (mev (set_on_object s e)).
Proof.
  intros K. apply set_on_object_pres; auto.
  - intros e1 i _ [D R]. split; [now apply organize_dicts|]. intros j st. cbn. rewrite dget_dset.
    destruct (String.eqb j i); [|apply R]. intros E. injection E as <-. right; now left.
  - intros e1 a ro st Hin H. unfold entry_step. apply mbind_pres; [now apply set_role_statuses|].
    intros e2 H2. apply set_raw_statuses; [|exact H2]. destruct st as [st|]; [|exact I]. eapply K; exact Hin.
Qed.

Lemma invite_statuses l e : statuses_ok e -> statuses_ok (mev (invite e l)).
Proof.
  apply (invite_pres statuses_ok). intros e1 i [[D1 D2] R] _. split; [split; cbn; now apply dset_nodup|].
  intros j ro. cbn. rewrite dget_dset. destruct (String.eqb j i); [|apply R]. intros E. injection E as <-. now left.
Qed.

(** every participant has a role *)
Definition covered (e : event) : Prop := dicts_ok e /\ roles_known e.

Lemma set_role_covered e a ro : covered e -> covered (mev (set_role e a ro)).
Proof.
  intros [D R]. split; [now apply set_role_dicts|]. intros j. rewrite set_role_state. intros H. specialize (R j H).
  unfold set_role. destruct (str_in ro roles), a; try exact R. unfold mev; cbn. rewrite dget_dset.
  destruct (String.eqb j _); [discriminate|exact R].
Qed.

Lemma raw_none_covered e a : covered e -> covered (mev (set_status_raw e a None)).
Proof.
  intros [[D1 D2] R]. split; [apply set_raw_dicts; now split|]. destruct a as [i|]; [|exact R].
  unfold set_status_raw, ddel. cbn [attendee_id]. destruct (dget (e_state e) i) eqn:S; [|exact R].
  cbn [e_role with_state]. destruct (dget (e_role e) i) eqn:Q; unfold mev; cbn.
  - intros j. cbn. rewrite !dget_drem by assumption. destruct (String.eqb j i); [auto|apply R].
  - intros j. cbn. rewrite !dget_drem by assumption. destruct (String.eqb j i); [congruence|apply R].
Qed.

Lemma raw_some_covered e i s : covered e -> dget (e_role e) i <> None ->
  covered (mev (set_status_raw e (Some i) (Some s))).
Proof.
  intros [D R] H. split; [now apply set_raw_dicts|]. intros j. unfold mev. cbn. rewrite dget_dset.
  destruct (String.eqb_spec j i) as [->|N]; [auto|apply R].
Qed.

Lemma set_status_covered e a st : covered e ->
  (forall i s, a = Some i -> st = Some s -> dget (e_role e) i <> None) -> covered (mev (set_status e a st)).
Proof.
  intros C H. destruct (set_status_cases e a st) as [(-> & _)|[(-> & _)|[(i & _ & -> & _)|(i & -> & K & _ & ->)]]];
    try exact C.
  apply mbind_pres; [|auto]. destruct st as [s|]; [|now apply raw_none_covered]. apply raw_some_covered; eauto.
Qed.

Lemma organize_covered e i : covered e -> covered (organize e i).
Proof.
  intros [D R]. split; [now apply organize_dicts|]. intros j. cbn. rewrite !dget_dset.
  destruct (String.eqb j i); [discriminate|apply R].
Qed.

Lemma entry_covered e a ro st : covered e -> covered (mev (entry_step e a ro st)).
Proof.
  intros C. unfold entry_step.
  apply (mbind_pres2 covered (fun e1 => covered e1 /\ forall i, a = Some i -> dget (e_role e1) i <> None)).
  - now apply set_role_covered.
  - intros E. split; [now apply set_role_covered|]. intros i ->. unfold set_role in *.
    destruct (str_in ro roles); [|discriminate]. unfold mev; cbn. rewrite dget_dset, String.eqb_refl. discriminate.
  - intros e1 [C1 H]. destruct st as [s|]; [|now apply raw_none_covered].
    destruct a as [i|]; [|exact C1]. apply raw_some_covered; auto.
Qed.

Lemma set_on_object_covered s e : covered e -> covered (mev (set_on_object s e)).
Proof. apply set_on_object_pres; auto using organize_covered, entry_covered. Qed.

Lemma invite_covered l e : covered e -> covered (mev (invite e l)).
Proof.
  apply (invite_pres covered). intros e1 i [[D1 D2] R] _. split; [split; cbn; now apply dset_nodup|].
  intros j. cbn. rewrite !dget_dset. destruct (String.eqb j i); [discriminate|apply R].
Qed.

(** * Applying entries *)
Definition entry := (attendee * string * option string)%type.

(** all entries name an attendee, give a documented role, and a status *)
Definition entries_fine (l : list entry) : Prop :=
  forall a ro st, In (a, ro, st) l -> exists i s, a = Some i /\ st = Some s /\ In ro roles.

Definition entry_ids (l : list entry) : list string :=
  flat_map (fun x : entry => match fst (fst x) with Some i => [i] | None => [] end) l.

Lemma entry_ids_in l i : In i (entry_ids l) <-> exists ro st, In (Some i, ro, st) l.
Proof.
  unfold entry_ids. rewrite in_flat_map. split.
  - intros ([[a ro] st] & H1 & H2). cbn in H2. destruct a as [j|]; [|destruct H2]. destruct H2 as [->|[]]. eauto.
  - intros (ro & st & H). exists (Some i, ro, st). split; [exact H|]. cbn. now left.
Qed.

Lemma entry_step_ok e i ro s : In ro roles ->
  entry_step e (Some i) ro (Some s)
  = (with_state (with_role e (dset (e_role e) i ro)) (dset (e_state e) i s), [], Ok tt).
Proof.
  intros H. unfold entry_step, set_role. replace (str_in ro roles) with true by (symmetry; now apply str_in_iff).
  reflexivity.
Qed.

(** without repetitions each entry is what the event ends up with *)
Lemma set_attendees_spec l : forall e, entries_fine l -> NoDup (entry_ids l) ->
  exists e', set_attendees e l = (e', [], Ok tt) /\ same_attrs e e'
    /\ (forall i ro s, In (Some i, ro, Some s) l -> dget (e_state e') i = Some s /\ dget (e_role e') i = Some ro)
    /\ (forall i, ~ In i (entry_ids l) -> dget (e_state e') i = dget (e_state e) i /\ dget (e_role e') i = dget (e_role e) i).
Proof.
  induction l as [|[[a ro] st] l IH]; intros e F N.
  - exists e. split; [reflexivity|]. split; [apply same_attrs_refl|]. split; [intros ? ? ? []|auto].
  - destruct (F a ro st (or_introl eq_refl)) as (i & s & -> & -> & Hro).
    cbn [set_attendees]. change (mbind (set_role e (Some i) ro) (fun e1 => set_status_raw e1 (Some i) (Some s)))
      with (entry_step e (Some i) ro (Some s)). rewrite entry_step_ok by exact Hro. rewrite mbind_ok.
    cbn [entry_ids flat_map fst] in N. change (flat_map _ l) with (entry_ids l) in N. inversion N as [|? ? N1 N2]; subst.
    set (e1 := with_state _ _). destruct (IH e1) as (e' & E & A & H1 & H2).
    { intros a' ro' st' Hin. apply (F a' ro' st'). now right. }
    { exact N2. }
    rewrite E. exists e'. split; [reflexivity|]. split; [eapply same_attrs_trans; [|exact A]; repeat split|].
    split.
    + intros j ro' s' [X|X]; [|now apply H1]. injection X as <- <- <-. destruct (H2 i N1) as [-> ->].
      subst e1. cbn. now rewrite !dget_dset, String.eqb_refl.
    + intros j Hj. cbn [entry_ids flat_map fst] in Hj. change (flat_map _ l) with (entry_ids l) in Hj.
      destruct (H2 j) as [-> ->]; [intros X; apply Hj; now right|]. subst e1. cbn. rewrite !dget_dset.
      destruct (String.eqb_spec j i) as [->|NE]; [exfalso; apply Hj; now left|auto].
Qed.

(** entries that say what is already so change nothing *)
Lemma set_attendees_same l : forall e, entries_fine l ->
  (forall i ro s, In (Some i, ro, Some s) l -> dget (e_state e) i = Some s /\ dget (e_role e) i = Some ro) ->
  set_attendees e l = (e, [], Ok tt).
Proof.
  induction l as [|[[a ro] st] l IH]; intros e F H; [reflexivity|].
  destruct (F a ro st (or_introl eq_refl)) as (i & s & -> & -> & Hro).
  cbn [set_attendees]. change (mbind (set_role e (Some i) ro) (fun e1 => set_status_raw e1 (Some i) (Some s)))
      with (entry_step e (Some i) ro (Some s)). rewrite entry_step_ok by exact Hro. rewrite mbind_ok.
  destruct (H i ro s (or_introl eq_refl)) as [H1 H2]. rewrite (dset_same _ _ _ H1), (dset_same _ _ _ H2).
  replace (with_state (with_role e (e_role e)) (e_state e)) with e by (destruct e; reflexivity).
  rewrite IH; [reflexivity| |].
  - intros a' ro' st' Hin. apply (F a' ro' st'). now right.
  - intros j ro' s' Hin. apply H. now right.
Qed.

(** * willModify *)
(** Python's [==] on the attributes of an event and a specification *)
Definition attrs_agree (s : spec) (e : event) : Prop :=
  e_dtstart e = s_dtstart s /\ e_duration e = s_duration s /\ e_title e = s_title s
  /\ e_description e = s_description s /\ e_location e = s_location s /\ e_status e = s_status s
  /\ opt_rule_eqb (e_recurrence e) (s_recurrence s) = true /\ e_allday e = s_allday s
  /\ (forall c, In c (e_categories e) <-> In c (s_categories s))
  /\ e_transparent e = s_transparent s /\ e_access e = s_access s /\ e_document e = s_document s.

Lemma set_eqb_iff a b : set_eqb a b = true <-> forall c, In c a <-> In c b.
Proof.
  unfold set_eqb. rewrite Bool.andb_true_iff, !forallb_forall. split.
  - intros [H1 H2] c. split; intros H; [apply H1 in H|apply H2 in H]; now apply str_in_iff.
  - intros H. split; intros c Hc; apply str_in_iff; apply H; exact Hc.
Qed.

Lemma opt_z_eqb_iff a b : opt_eqb Z.eqb a b = true <-> a = b.
Proof.
  destruct a as [x|], b as [y|]; cbn; split; intros H; try congruence; try discriminate.
  - apply Z.eqb_eq in H. congruence.
  - apply Z.eqb_eq. congruence.
Qed.

Lemma attrs_differ_iff s e : attrs_differ s e = false <-> attrs_agree s e.
Proof.
  unfold attrs_differ, attrs_agree. rewrite Bool.negb_false_iff, !Bool.andb_true_iff.
  rewrite Z.eqb_eq, opt_z_eqb_iff, !String.eqb_eq, !Bool.eqb_true_iff, set_eqb_iff, opt_str_eqb_eq. intuition.
Qed.

Lemma opt_str_neqb a b : negb (opt_str_eqb a b) = false <-> a = b.
Proof. rewrite Bool.negb_false_iff. apply opt_str_eqb_eq. Qed.

Lemma attendees_differ_spec e l b : attendees_differ e l = Ok b ->
  (b = false <-> forall a ro st, In (a, ro, st) l -> exists i, a = Some i /\ dget (e_state e) i = st
       /\ dget (e_role e) i = Some "REQ-PARTICIPANT"%string).
Proof.
  revert b. induction l as [|[[a ro] st] l IH]; intros b E; cbn [attendees_differ] in E.
  - injection E as <-. split; [intros _ a ro st []|reflexivity].
  - destruct a as [i|]; [|discriminate]. unfold get_status, get_role in E. cbn [attendee_id rbind] in E.
    destruct (negb (opt_str_eqb (dget (e_state e) i) st)) eqn:X.
    + injection E as <-. split; [discriminate|]. intros H. exfalso.
      destruct (H (Some i) ro st (or_introl eq_refl)) as (j & J & S & _). injection J as <-.
      apply opt_str_neqb in S. congruence.
    + apply opt_str_neqb in X. destruct (negb (opt_str_eqb (dget (e_role e) i) (Some "REQ-PARTICIPANT"%string))) eqn:Y.
      * injection E as <-. split; [discriminate|]. intros H. exfalso.
        destruct (H (Some i) ro st (or_introl eq_refl)) as (j & J & _ & S). injection J as <-.
        apply opt_str_neqb in S. congruence.
      * apply opt_str_neqb in Y. rewrite (IH b E). split.
        -- intros H a ro' st' [Z|Z]; [|eauto]. injection Z as <- <- <-. eauto.
        -- intros H a ro' st' Z. apply (H a ro' st'). now right.
Qed.

Lemma attendees_differ_total e l : (forall a ro st, In (a, ro, st) l -> a <> None) -> exists b, attendees_differ e l = Ok b.
Proof.
  induction l as [|[[a ro] st] l IH]; intros H; cbn [attendees_differ]; [eauto|].
  destruct a as [i|]; [|exfalso; now apply (H None ro st (or_introl eq_refl))].
  unfold get_status, get_role. cbn [attendee_id rbind]. destruct (negb _); [eauto|]. destruct (negb _); [eauto|].
  apply IH. intros a ro' st' Z. apply (H a ro' st'). now right.
Qed.

(** when willModify says no *)
Lemma will_modify_false s e : will_modify s e = Ok false <->
  attrs_agree s e /\ (exists o, s_organizer s = Some o /\ e_organizer e = Some o
    /\ dget (e_state e) o = Some "ACCEPTED"%string /\ dget (e_role e) o = Some "REQ-PARTICIPANT"%string)
  /\ (forall a ro st, In (a, ro, st) (s_attendees s) -> exists i, a = Some i /\ dget (e_state e) i = st
       /\ dget (e_role e) i = Some "REQ-PARTICIPANT"%string).
Proof.
  unfold will_modify. destruct (attrs_differ s e) eqn:D.
  { split; [discriminate|]. intros [H _]. apply attrs_differ_iff in H. congruence. }
  apply attrs_differ_iff in D. destruct (s_organizer s) as [o|] eqn:O.
  2:{ cbn. split; [discriminate|]. intros (_ & (o & X & _) & _). discriminate. }
  destruct (negb (opt_str_eqb (e_organizer e) (Some o))) eqn:A.
  { split; [discriminate|]. intros (_ & (o' & X & Y & _) & _). injection X as <-. apply opt_str_neqb in Y. congruence. }
  apply opt_str_neqb in A. unfold get_status, get_role. cbn [attendee_id rbind].
  destruct (negb (opt_str_eqb (dget (e_state e) o) (Some "ACCEPTED"%string))) eqn:B.
  { split; [discriminate|]. intros (_ & (o' & X & _ & Y & _) & _). injection X as <-. apply opt_str_neqb in Y. congruence. }
  apply opt_str_neqb in B.
  destruct (negb (opt_str_eqb (dget (e_role e) o) (Some "REQ-PARTICIPANT"%string))) eqn:C.
  { split; [discriminate|]. intros (_ & (o' & X & _ & _ & Y) & _). injection X as <-. apply opt_str_neqb in Y. congruence. }
  apply opt_str_neqb in C. split.
  - intros E. split; [exact D|]. split; [eauto 6|]. now apply (attendees_differ_spec _ _ _ E).
  - intros (_ & _ & H). destruct (attendees_differ_total e (s_attendees s)) as [b E].
    { intros a ro st Hin. destruct (H a ro st Hin) as (i & -> & _). discriminate. }
    rewrite E. f_equal. now apply (attendees_differ_spec _ _ _ E).
Qed.

(** the same event, as far as Python's [==] tells *)
Definition same_event (e e' : event) : Prop :=
  e_uid e = e_uid e' /\ e_dtstart e = e_dtstart e' /\ e_duration e = e_duration e' /\ e_title e = e_title e'
  /\ e_description e = e_description e' /\ e_location e = e_location e' /\ e_status e = e_status e'
  /\ opt_rule_eqb (e_recurrence e) (e_recurrence e') = true /\ e_allday e = e_allday e'
  /\ (forall c, In c (e_categories e) <-> In c (e_categories e'))
  /\ e_transparent e = e_transparent e' /\ e_access e = e_access e' /\ e_document e = e_document e'
  /\ e_organizer e = e_organizer e'
  /\ (forall i, dget (e_state e) i = dget (e_state e') i) /\ (forall i, dget (e_role e) i = dget (e_role e') i).

(** entries whose role is the one willModify compares with *)
Definition entries_plain (l : list entry) : Prop :=
  forall a ro st, In (a, ro, st) l -> exists i s, a = Some i /\ st = Some s /\ ro = "REQ-PARTICIPANT"%string.

Lemma plain_fine l : entries_plain l -> entries_fine l.
Proof.
  intros H a ro st Hin. destruct (H a ro st Hin) as (i & s & -> & -> & ->). exists i, s. repeat split. right; now left.
Qed.

Lemma will_modify_false_noop s e : entries_plain (s_attendees s) -> will_modify s e = Ok false ->
  exists e', set_on_object s e = (e', [], Ok tt) /\ same_event e e'.
Proof.
  intros P W. apply (proj1 (will_modify_false s e)) in W. destruct W as (A & (o & O1 & O2 & O3 & O4) & H).
  rewrite set_on_object_eq, O1. unfold organize. cbn [e_state e_role set_attrs with_state].
  rewrite (dset_same _ _ _ O3), (dset_same _ _ _ O4). rewrite set_attendees_same.
  - eexists. split; [reflexivity|]. unfold attrs_agree in A. decompose [and] A. clear A.
    unfold same_event. cbn. repeat (split; [assumption || reflexivity || auto|]). auto.
  - now apply plain_fine.
  - intros i ro s' Hin. destruct (P _ _ _ Hin) as (i' & s0 & X & Y & ->). injection X as <-. injection Y as <-.
    destruct (H _ _ _ Hin) as (i' & X & H1 & H2). injection X as <-. cbn. auto.
Qed.

Lemma will_modify_exact s e o : s_organizer s = Some o -> entries_plain (s_attendees s) ->
  NoDup (entry_ids (s_attendees s)) -> ~ In o (entry_ids (s_attendees s)) ->
  exists e', set_on_object s e = (e', [], Ok tt)
    /\ exists b, will_modify s e = Ok b /\ (b = false <-> same_event e e').
Proof.
  intros O P N NO.
  destruct (set_attendees_spec (s_attendees s) (organize (set_attrs s e) o) (plain_fine _ P) N) as (e' & E & A & H1 & H2).
  exists e'. rewrite set_on_object_eq, O. split; [exact E|].
  assert (T : exists b, will_modify s e = Ok b).
  { unfold will_modify. rewrite O. destruct (attrs_differ s e); [eauto|]. destruct (negb _); [eauto|].
    unfold get_status, get_role. cbn [attendee_id rbind]. destruct (negb _); [eauto|]. destruct (negb _); [eauto|].
    apply attendees_differ_total. intros a ro st Hin. destruct (P a ro st Hin) as (i & s0 & -> & _). discriminate. }
  destruct T as [b T]. exists b. split; [exact T|]. split.
  - intros ->. destruct (will_modify_false_noop s e P T) as (e2 & E2 & S). rewrite set_on_object_eq, O in E2.
    assert (e2 = e') by congruence. now subst.
  - intros S. cut (will_modify s e = Ok false); [congruence|]. apply will_modify_false.
    destruct (H2 o NO) as [Q1 Q2]. cbn in Q1, Q2. rewrite dget_dset, String.eqb_refl in Q1, Q2.
    unfold same_attrs in A. cbn in A. decompose [and] A. clear A.
    unfold same_event in S. decompose [and] S. clear S.
    split; [|split].
    + assert (CAT : forall c, In c (e_categories e) <-> In c (s_categories s)).
      { match goal with H : e_categories e' = _ |- _ => rewrite <- H; assumption end. }
      unfold attrs_agree. repeat (split; [congruence || exact CAT|]). congruence.
    + exists o. repeat split; congruence.
    + intros a ro st Hin. destruct (P a ro st Hin) as (i & s0 & -> & -> & ->). exists i.
      destruct (H1 _ _ _ Hin). split; [reflexivity|]. split; congruence.
Qed.

(** * Replaying participation notifications *)
Definition upd (f : string -> option string) (i : string) (v : option string) : string -> option string :=
  fun j => if String.eqb j i then v else f j.

(** [replays cur n final]: every notification of [n] reports the status its
    attendee has at that point and a different new one, and the new statuses lead
    from [cur] to [final]. *)
Fixpoint replays (uid : string) (cur : string -> option string) (n : list notification)
         (final : string -> option string) : Prop :=
  match n with
  | [] => forall i, final i = cur i
  | NParticipation u who old new :: r =>
      u = uid /\ old = cur who /\ new <> old /\ replays uid (upd cur who new) r final
  | _ :: _ => False
  end.

Lemma replays_ext uid n : forall a b c d, replays uid a n b -> (forall i, c i = a i) -> (forall i, d i = b i) ->
  replays uid c n d.
Proof.
  induction n as [|x n IH]; intros a b c d H E1 E2; cbn in *.
  - intros i. now rewrite E2, H, E1.
  - destruct x as [u|u|u|u who old new]; try contradiction. destruct H as (H1 & H2 & H3 & H4).
    split; [exact H1|]. split; [now rewrite E1|]. split; [exact H3|].
    eapply IH; [exact H4| |exact E2]. intros i. unfold upd. destruct (String.eqb i who); auto.
Qed.

Lemma replays_app uid n1 : forall n2 a b c, replays uid a n1 b -> replays uid b n2 c -> replays uid a (n1 ++ n2) c.
Proof.
  induction n1 as [|x n1 IH]; intros n2 a b c H1 H2; cbn in *.
  - eapply replays_ext; [exact H2| |reflexivity]. intros i. symmetry. apply H1.
  - destruct x as [u|u|u|u who old new]; try contradiction. destruct H1 as (K1 & K2 & K3 & K4).
    split; [exact K1|]. split; [exact K2|]. split; [exact K3|]. eapply IH; eauto.
Qed.

(** the calls that concern the participation in one event *)
Inductive eop := EInvite (l : list attendee) | EStatus (a : attendee) (st : option string) | ERole (a : attendee) (ro : string).
Definition edo (e : event) (o : eop) : mut :=
  match o with
  | EInvite l => invite e l
  | EStatus a st => set_status e a st
  | ERole a ro => set_role e a ro
  end.

(** a sequence of calls, the caller catching every exception *)
Fixpoint erun (e : event) (ops : list eop) : event * list notification * list (res unit) :=
  match ops with
  | [] => (e, [], [])
  | o :: r =>
      let '(e1, n1, r1) := edo e o in
      let '(e2, n2, rs) := erun e1 r in
      (e2, n1 ++ n2, r1 :: rs)
  end.

Lemma set_status_replays e a st : dicts_ok e -> mres (set_status e a st) <> Raise KeyError ->
  replays (e_uid e) (dget (e_state e)) (mnotes (set_status e a st)) (dget (e_state (mev (set_status e a st)))).
Proof.
  intros D NK. destruct (set_status_cases e a st) as [(-> & _)|[(-> & _)|[(i & _ & -> & _)|(i & -> & K & NE & E)]]];
    try (cbn; reflexivity).
  destruct st as [s|].
  - rewrite set_status_some by (exact K || exact NE). cbn. split; [reflexivity|]. split; [reflexivity|].
    split; [congruence|]. intros j. unfold upd. now rewrite dget_dset.
  - destruct (dget (e_role e) i) eqn:R.
    + rewrite set_status_none by (assumption || congruence). cbn. split; [reflexivity|]. split; [reflexivity|].
      split; [congruence|]. intros j. unfold upd. destruct D as [D1 D2]. now rewrite dget_drem.
    + exfalso. apply NK. rewrite (set_status_none_norole e i NE R). reflexivity.
Qed.

Lemma mbind_replays uid m f e :
  replays uid (dget (e_state e)) (mnotes m) (dget (e_state (mev m))) ->
  replays uid (dget (e_state (mev m))) (mnotes (f (mev m))) (dget (e_state (mev (f (mev m))))) ->
  replays uid (dget (e_state e)) (mnotes (mbind m f)) (dget (e_state (mev (mbind m f)))).
Proof.
  intros H1 H2. destruct m as [[e1 n1] r1]. unfold mev, mnotes in *. cbn in *.
  destruct r1; [|exact H1|exact H1]. destruct (f e1) as [[e2 n2] r2]. cbn in *. eapply replays_app; eauto.
Qed.

Lemma invite_replays l : forall e,
  replays (e_uid e) (dget (e_state e)) (mnotes (invite e l)) (dget (e_state (mev (invite e l)))).
Proof.
  induction l as [|a l IH]; intros e; [cbn; reflexivity|]. cbn [invite].
  destruct a as [i|]; [|cbn; reflexivity]. unfold get_status. cbn [attendee_id rbind].
  destruct (dget (e_state e) i) eqn:S; [apply IH|]. rewrite (invite_step e i S).
  apply mbind_replays.
  - cbn. split; [reflexivity|]. split; [now rewrite S|]. split; [discriminate|]. intros j. unfold upd. now rewrite dget_dset.
  - unfold mev at 1 3 4. cbn [fst]. match goal with |- context [invite ?x l] => exact (IH x) end.
Qed.

Lemma edo_dicts e o : dicts_ok e -> dicts_ok (mev (edo e o)).
Proof.
  intros D. destruct o; cbn; [|now apply set_status_dicts|now apply set_role_dicts].
  apply (invite_pres dicts_ok); [|exact D]. intros e1 i [D1 D2] _. split; cbn; now apply dset_nodup.
Qed.

Lemma invite_attrs l e : same_attrs e (mev (invite e l)).
Proof.
  apply (invite_pres (same_attrs e)); [|apply same_attrs_refl]. intros e1 i H _.
  eapply same_attrs_trans; [exact H|]. repeat split.
Qed.

Lemma edo_attrs e o : same_attrs e (mev (edo e o)).
Proof. destruct o; cbn; [apply invite_attrs|apply set_status_attrs|apply set_role_attrs]. Qed.

Lemma erun_replays ops : forall e e' n rs, dicts_ok e -> erun e ops = (e', n, rs) -> ~ In (Raise KeyError) rs ->
  replays (e_uid e) (dget (e_state e)) n (dget (e_state e')) /\ dicts_ok e' /\ same_attrs e e'.
Proof.
  induction ops as [|o ops IH]; intros e e' n rs D E NK; cbn [erun] in E.
  - injection E as <- <- <-. split; [cbn; reflexivity|]. split; [exact D|apply same_attrs_refl].
  - pose proof (edo_dicts e o D) as D1. pose proof (edo_attrs e o) as A1.
    assert (R1 : mres (edo e o) <> Raise KeyError ->
                 replays (e_uid e) (dget (e_state e)) (mnotes (edo e o)) (dget (e_state (mev (edo e o))))).
    { destruct o as [l|a st|a ro]; cbn [edo]; intros H.
      - apply invite_replays.
      - now apply set_status_replays.
      - rewrite set_role_notes, set_role_state. cbn. reflexivity. }
    destruct (edo e o) as [[e1 n1] r1]. unfold mev, mnotes, mres in *. cbn in *.
    destruct (erun e1 ops) as [[e2 n2] rs2] eqn:E2. injection E as <- <- <-.
    destruct (IH e1 e2 n2 rs2 D1 E2) as (H1 & H2 & H3); [intros X; apply NK; now right|].
    split; [|split; [exact H2|eapply same_attrs_trans; eassumption]].
    eapply replays_app; [apply R1; intros X; apply NK; now left|].
    destruct A1 as (U & _). rewrite <- U. exact H1.
Qed.
