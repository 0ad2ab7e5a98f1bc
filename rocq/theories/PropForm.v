(** Property theorems C154: events keep to the form the interfaces declare
    (interfaces.py 411-517, 519-582, 634-672; cal.py 60-105, 395-453, 748-794). *)
From Verif Require Import Base PyDate DateFacts Recurrent RecurMisc CalTime TimeProofs Event Storage ICal System
  QueryProofs BlockProofs EventProofs SpecProofs SystemProofs StoreProofs IdProofs ImportProofs PropEvent PropSystem
  ICalProofs ImportContent RecurSound PropICal PropCalendar PropEdge Repr PropGiven.

(** ** Specification *)
(** the values of the Choice fields, interfaces.py 475, 495, 645, 661 *)
Definition a_status (t : string) : Prop := (t = "TENTATIVE" \/ t = "CONFIRMED" \/ t = "CANCELED")%string.
Definition an_access (t : string) : Prop := (t = "PUBLIC" \/ t = "PRIVATE" \/ t = "CONFIDENTIAL")%string.
Definition a_monthly (t : string) : Prop := (t = "monthday" \/ t = "weekday" \/ t = "lastweekday")%string.

(** IBasicRecurrenceRule, IWeeklyRecurrenceRule, IMonthlyRecurrenceRule; also of
    rules that do not repeat, which have the same attributes *)
Definition rule_form (r : rule) : Prop :=
  1 <= r_interval r /\ (r_count r = None \/ r_until r = None) /\ r_until r <> Some VOther
  /\ (r_kind r = KWeekly -> forall d, In d (r_weekdays r) -> 0 <= d <= 6) /\ (r_kind r = KMonthly -> a_monthly (r_monthly r)).

(** ICalendarEvent and IExtendedCalendarEvent, but for the length *)
Definition event_form (e : event) : Prop :=
  a_status (e_status e) /\ an_access (e_access e) /\ forall r, e_recurrence e = Some r -> rule_form r.
Definition spec_form (sp : spec) : Prop :=
  a_status (s_status sp) /\ an_access (s_access sp) /\ forall r, s_recurrence sp = Some r -> rule_form r.

(** the same of a component, by its own lines *)
Definition rrule_form (rr : rrule) : Prop :=
  (forall i l, rr_interval rr = Some (i :: l) -> 1 <= i) /\ (rr_count rr = None \/ rr_until rr = None)
  /\ (forall l, rr_until rr <> Some (VOther :: l)).
Definition component_form (v : vevent) : Prop :=
  (forall t, v_status v = Some t -> a_status t) /\ (forall t, v_class v = Some t -> an_access t)
  /\ (forall rr, v_rrule v = Some rr -> rrule_form rr).

Definition op_form (o : op) : Prop :=
  match o with
  | OCreate _ sp _ | OAttendeeCreate _ sp _ | OSpecify _ sp | OAssign _ sp => spec_form sp /\ s_duration sp <> None
  | OImport _ (Ok (Some vs)) _ _ _ => forall v, In v vs -> component_form v
  | _ => True
  end.

(** ** Proofs *)
Lemma rule_form_eq r r' : rule_eq r r' = true -> (rule_form r <-> rule_form r').
Proof.
  intros E. apply rule_eq_tuple in E. unfold tuple_for_comparison in E. injection E as K I C U X W.
  unfold rule_form. rewrite K, I, C, U. rewrite K in W. destruct (r_kind r'); try (intuition discriminate); injection W as ->; intuition discriminate.
Qed.

Lemma imported_rule_form rr r : import_rule rr = Ok r -> (rule_form r <-> rrule_form rr).
Proof.
  intros E. pose proof (C54_valid_iff rr r E) as V. destruct (import_rule_says rr r E) as (_ & I & C & U & _ & W & M).
  unfold first_or in I, C, U. unfold rrule_form. split.
  - intros (F1 & F2 & F3 & _). split; [|split].
    + intros i l X. rewrite X in I. destruct I as (y & l' & Y & I). assert (r_interval r = i) by congruence. lia.
    + destruct (rr_count rr) as [lc|]; [|now left]. destruct (rr_until rr) as [lu|]; [|now right]. exfalso.
      destruct C as (y & ? & _ & C). destruct U as (z & ? & _ & U). destruct F2 as [X|X]; rewrite X in *; discriminate.
    + intros l X. rewrite X in U. destruct U as (y & l' & Y & U). apply F3. rewrite U. congruence.
  - intros (F1 & F2 & F3). assert (VR : validate r = Ok tt) by (apply V; auto). destruct (validate_inv r VR) as (HI & CU & HM & HW & _).
    split; [exact HI|]. split; [exact CU|]. split.
    + destruct (rr_until rr) as [lu|]; [|now rewrite U]. destruct U as (y & l' & -> & ->). intros X. injection X as ->. now apply (F3 l').
    + split; [|exact HM]. intros K. apply Forall_forall. exact (HW K).
Qed.

Lemma as_specified_form sp e : as_specified sp e -> (event_form e <-> spec_form sp).
Proof.
  unfold as_specified, event_form, spec_form. intros (_ & _ & _ & -> & -> & _ & _ & _ & -> & _). reflexivity.
Qed.

Lemma says_text_form v e : says_text v e -> (event_form e <-> component_form v).
Proof.
  intros (_ & _ & _ & S & _ & _ & A & _ & R). unfold event_form, component_form. rewrite S, A.
  assert (ST : a_status (text (v_status v) "TENTATIVE") <-> (forall t, v_status v = Some t -> a_status t)).
  { destruct (v_status v) as [t|]; cbn.
    - split; [intros H t' X; injection X as <-; exact H|auto].
    - split; [discriminate|]. intros _. now left. }
  assert (AC : an_access (text (v_class v) "PUBLIC") <-> (forall t, v_class v = Some t -> an_access t)).
  { destruct (v_class v) as [t|]; cbn.
    - split; [intros H t' X; injection X as <-; exact H|auto].
    - split; [discriminate|]. intros _. now left. }
  rewrite ST, AC. destruct (v_rrule v) as [rr|].
  - destruct R as (r & r' & E & I & Q). pose proof (imported_rule_form rr r' I) as F. pose proof (rule_form_eq r r' Q) as G. rewrite E.
    split; intros (X & Y & Z); (split; [exact X|split; [exact Y|]]).
    + intros rr' W. injection W as <-. apply F, G. now apply Z.
    + intros r0 W. injection W as <-. apply G, F. now apply Z.
  - rewrite R. split; intros (X & Y & _); (split; [exact X|split; [exact Y|discriminate]]).
Qed.

Lemma same_form e e' : same_attrs e e' -> event_form e /\ e_duration e <> None -> event_form e' /\ e_duration e' <> None.
Proof.
  intros SA [(X & Y & Z) D]. unfold same_attrs in SA. decompose [and] SA. split; [|congruence]. split; [congruence|]. split; [congruence|].
  intros r R. apply Z. congruence.
Qed.

Lemma adjust_form e : event_form e -> event_form (allday_adjust e) /\ e_duration (allday_adjust e) <> None.
Proof.
  intros (X & Y & Z). destruct (allday_rest e) as (_ & _ & _ & _ & S & R & _ & _ & _ & A & _). split.
  - split; [now rewrite S|]. split; [now rewrite A|]. intros r. rewrite R. apply Z.
  - unfold allday_adjust. destruct (e_duration e); cbn; discriminate.
Qed.

Lemma from_form sp b u e : spec_form sp -> (b = false -> s_duration sp <> None) -> from_spec sp b u e -> event_form e /\ e_duration e <> None.
Proof.
  intros F D. unfold from_spec. assert (B : event_form (base sp u)) by exact F. destruct b; intros S; apply (same_form _ _ S).
  - now apply adjust_form.
  - split; [exact B|]. now apply D.
Qed.

(** ** C154.  If every specification and every text given keeps to the form, every
    event object does at every moment, and has a length. *)
Theorem C154_kept : forall cf s h r, history cf s h -> (r < made h)%nat ->
  (forall o n x, In (o, n, x) h -> op_form o) ->
  event_form (obj s r) /\ e_duration (obj s r) <> None.
Proof.
  intros cf s h r H. pose proof (made_heap cf s h H) as M. rewrite M. clear M.
  induction H as [|s h o s' n x H IH E]; [cbn; lia|]. intros Hr OK.
  assert (IH' : (r < List.length (sys_heap s))%nat -> event_form (obj s r) /\ e_duration (obj s r) <> None).
  { intros L. apply IH; [exact L|]. intros o' n' x' I. apply (OK o' n' x'). apply in_or_app. now left. }
  assert (OO : op_form o) by (apply (OK o n x); apply in_or_app; right; now left).
  destruct (history_tracks cf s h H) as [SI _].
  destruct (step_gives cf s o s' n x r SI E Hr) as [(L & _ & _ & SA)|[(L & -> & SA)|[(sp & L & -> & OB)|(sp & u & F & W)]]].
  - apply (same_form _ _ SA). now apply IH'.
  - apply (same_form _ _ SA). apply adjust_form. now apply IH'.
  - rewrite OB. destruct OO as [F D]. split; [exact F|exact D].
  - apply (from_form sp _ u _) in F; [exact F| |].
    + destruct o; try contradiction.
      * destruct W as (_ & _ & ->). apply OO.
      * destruct W as (_ & _ & ->). exact (proj1 OO).
      * destruct W as (_ & _ & ->). apply OO.
      * destruct parsed as [[vs|]| |]; try contradiction. destruct W as (v & V & _ & IS). specialize (OO v V).
        destruct (import_spec_says _ _ _ _ _ IS) as (_ & _ & X).
        assert (T : says_text v (base sp "")). { apply X. unfold agrees_text. cbn. do 4 (split; [reflexivity|]). split; [intros c0; reflexivity|]. do 3 (split; [reflexivity|]). apply opt_rule_refl. }
        apply (says_text_form v _ T) in OO. exact OO.
    + intros _. destruct o; try contradiction.
      * destruct W as (_ & _ & ->). apply OO.
      * destruct W as (_ & _ & ->). exact (proj2 OO).
      * destruct W as (_ & _ & ->). apply OO.
      * destruct parsed as [[vs|]| |]; try contradiction. destruct W as (v & V & _ & IS).
        destruct (import_spec_says _ _ _ _ _ IS) as ((d & D & _) & _). rewrite D. discriminate.
Qed.
Print Assumptions C154_kept.

(** An event is in form exactly if what the last call that gave it its values
    said was: nothing repairs it, nothing spoils it. *)
Definition in_form_because (h1 : list record) (o : op) (r : nat) (e : event) : Prop :=
  match o with
  | OCreate _ sp _ | OAttendeeCreate _ sp _ => made h1 = r /\ (event_form e <-> spec_form sp)
  | OSpecify k sp | OAssign k sp => k = r /\ (event_form e <-> spec_form sp)
  | OImport _ (Ok (Some vs)) _ _ _ => exists v, In v vs /\ v_uid v = Some (e_uid e) /\ (event_form e <-> component_form v)
  | _ => False
  end.

Theorem C154_exact : forall cf s h r, history cf s h -> (r < made h)%nat ->
  exists h1 o n x h2, h = h1 ++ (o, n, x) :: h2 /\ in_form_because h1 o r (obj s r)
  /\ forall o' n' x', In (o', n', x') h2 -> ~ replaces r o'.
Proof.
  intros cf s h r H Hr. destruct (C141_given cf s h r H Hr) as (h1 & o & n & x & h2 & t & d & E & G & N & _).
  exists h1, o, n, x, h2. split; [exact E|]. split; [|exact N]. unfold gives in G. unfold in_form_because. destruct o; try contradiction.
  - destruct G as (A & _ & B & _). split; [exact A|now apply as_specified_form].
  - destruct G as (A & _ & B & _). split; [exact A|now apply as_specified_form].
  - destruct G as (A & _ & B & _). split; [exact A|now apply as_specified_form].
  - destruct G as (A & _ & B & _). split; [exact A|now apply as_specified_form].
  - destruct parsed as [[vs|]| |]; try contradiction. destruct G as (v & _ & V & U & T & _). exists v. split; [exact V|]. split; [exact U|].
    now apply says_text_form.
Qed.
Print Assumptions C154_exact.

(** An event has no length exactly if a specification without one was given to it
    last, and it was not made into whole days then or since. *)
Definition gave_no_length (h1 : list record) (o : op) (r : nat) : Prop :=
  match o with
  | OCreate _ sp _ | OAttendeeCreate _ sp _ => made h1 = r /\ s_duration sp = None /\ s_allday sp = false
  | OSpecify k sp | OAssign k sp => k = r /\ s_duration sp = None
  | _ => False
  end.

Theorem C154_no_length : forall cf s h r, history cf s h -> (r < made h)%nat ->
  e_duration (obj s r) = None ->
  exists h1 o n x h2, h = h1 ++ (o, n, x) :: h2 /\ gave_no_length h1 o r
  /\ forall o' n' x', In (o', n', x') h2 -> ~ replaces r o' /\ o' <> OAdjust r.
Proof.
  intros cf s h r H. pose proof (made_heap cf s h H) as M. rewrite M. clear M.
  induction H as [|s h o s' n x H IH E]; [cbn; lia|]. intros Hr D.
  pose proof (made_heap cf s h H) as M.
  destruct (history_tracks cf s h H) as [SI _].
  destruct (step_gives cf s o s' n x r SI E Hr) as [(L & NR & NA & SA)|[(L & -> & SA)|[(sp & L & -> & OB)|(sp & u & F & W)]]].
  - assert (D0 : e_duration (obj s r) = None) by (unfold same_attrs in SA; decompose [and] SA; congruence).
    destruct (IH L D0) as (h1 & o0 & n0 & x0 & h2 & -> & G & N). exists h1, o0, n0, x0, (h2 ++ [(o, n, x)]).
    split; [now rewrite <- app_assoc|]. split; [exact G|]. intros o' n' x' I. apply in_app_or in I as [I|[I|[]]]; [now apply (N o' n' x')|].
    injection I as <- <- <-. split; [exact NR|]. intros ->. cbn in NA. rewrite Nat.eqb_refl in NA. discriminate.
  - exfalso. assert (X : e_duration (allday_adjust (obj s r)) = None) by (unfold same_attrs in SA; decompose [and] SA; congruence).
    unfold allday_adjust in X. destruct (e_duration (obj s r)); discriminate X.
  - exists h, (OAssign r sp), n, x, []. split; [reflexivity|]. split; [|intros ? ? ? []]. split; [reflexivity|]. rewrite OB in D. exact D.
  - exists h, o, n, x, []. split; [reflexivity|]. split; [|intros ? ? ? []].
    assert (DB : (List.length (sys_heap s) <=? r)%nat && s_allday sp = false /\ s_duration sp = None).
    { unfold from_spec in F. destruct ((List.length (sys_heap s) <=? r)%nat && s_allday sp).
      - exfalso. assert (X : e_duration (allday_adjust (base sp u)) = None) by (unfold same_attrs in F; decompose [and] F; congruence).
        unfold allday_adjust in X. destruct (e_duration (base sp u)); discriminate X.
      - split; [reflexivity|]. unfold same_attrs in F. decompose [and] F. cbn in *. congruence. }
    destruct DB as [B DS]. unfold gave_no_length. rewrite M. destruct o; try contradiction.
    + destruct W as (-> & _ & ->). rewrite Nat.leb_refl in B. auto.
    + destruct W as (-> & _ & ->). rewrite Nat.leb_refl in B. cbn in *. auto.
    + destruct W as (-> & _ & ->). auto.
    + destruct parsed as [[vs|]| |]; try contradiction. destruct W as (v & _ & _ & IS).
      destruct (import_spec_says _ _ _ _ _ IS) as ((d & X & _) & _). congruence.
Qed.
Print Assumptions C154_no_length.

(** The rules that can be constructed are those in form, if their exceptions are
    dates and until is not something else altogether. *)
Theorem C154_constructed : forall k i c u ex w m,
  (exists r, mk_rule k i c u ex w m = Ok r)
  <-> 1 <= i /\ (c = None \/ u = None) /\ (forall v, In v ex -> v <> VOther)
      /\ (k = KWeekly -> forall d, In d w -> 0 <= d <= 6) /\ (k = KMonthly -> a_monthly m).
Proof.
  intros k i c u ex w m. split.
  - intros [r E]. unfold mk_rule in E.
    match type of E with rbind (validate ?y) _ = _ => set (q := y) in *; destruct (validate q) as [[]| |] eqn:V; try discriminate E end.
    destruct (validate_inv q V) as (HI & CU & HM & HW & HE). subst q. cbn in *. split; [exact HI|]. split; [exact CU|].
    split; [now apply Forall_forall|]. split.
    + intros ->. apply Forall_forall. now apply HW.
    + intros ->. now apply HM.
  - intros (HI & CU & HE & HW & HM). unfold mk_rule.
    match goal with |- exists r, rbind (validate ?y) _ = _ => set (q := y); assert (V : validate q = Ok tt) end; [|rewrite V; now exists q].
    assert (B : basic_validate q = Ok tt).
    { unfold basic_validate, q. cbn. replace (1 <=? i) with true by (symmetry; apply Z.leb_le; lia). cbn.
      replace (forallb is_date_instance ex) with true; [now destruct CU as [->| ->]; [|destruct c]|].
      symmetry. apply forallb_forall. intros v I. specialize (HE v I). destruct v; [reflexivity|reflexivity|now elim HE]. }
    unfold validate. destruct k; cbn [r_kind q]; rewrite ?B; cbn [rbind]; try reflexivity.
    + replace (forallb _ _) with true; [reflexivity|]. symmetry. apply forallb_forall. intros d I. cbn in I. specialize (HW eq_refl d I).
      apply andb_true_iff. split; apply Z.leb_le; lia.
    + cbn. destruct (HM eq_refl) as [->|[->| ->]]; reflexivity.
Qed.
Print Assumptions C154_constructed.

(** The choices are those of the vocabularies named in the interfaces. *)
Theorem C154_choices : forall st ac mo,
  status_vocabulary = Ok st -> access_vocabulary = Ok ac -> monthly_vocabulary = Ok mo ->
  forall t, (a_status t <-> In t (map fst st)) /\ (an_access t <-> In t (map fst ac)) /\ (a_monthly t <-> In t (map fst mo)).
Proof.
  intros st ac mo S A M t. vm_compute in S, A, M. injection S as <-. injection A as <-. injection M as <-.
  unfold a_status, an_access, a_monthly. cbn. repeat split; intuition.
Qed.
Print Assumptions C154_choices.

(** The condition on texts is needed.  The cancelled event of the standard has
    a status that is no choice (RFC 2445, 4.8.1.11); an interval of zero is
    taken over. *)
Definition given_text (v : vevent) : list op := office ++ [OImport 0 (Ok (Some [v])) (None, None) None false].
Definition rfc_cancelled : vevent :=
  mkV (Some "n1"%string) (Some (IFloat (p_at 732502 9))) (Some (IFloat (p_at 732502 10))) None None None None (Some "CANCELLED"%string)
      None [] [] None None None None.
Definition rfc_zero : vevent :=
  mkV (Some "n1"%string) (Some (IFloat (p_at 732502 9))) (Some (IFloat (p_at 732502 10))) None None None None None None [] [] None None None
      (Some (mkRR (Some ["DAILY"%string]) (Some [0]) None None None)).
Theorem C154_text_needed :
  (exists s h r, history cf0 s h /\ (r < made h)%nat /\ get_event s "n1" = Ok r /\ ~ a_status (e_status (obj s r))
     /\ In (e_status (obj s r)) ["TENTATIVE"; "CONFIRMED"; "CANCELLED"]%string)
  /\ exists s h r q, history cf0 s h /\ (r < made h)%nat /\ get_event s "n1" = Ok r /\ e_recurrence (obj s r) = Some q /\ ~ rule_form q.
Proof.
  split.
  - exists (fst (told cf0 (given_text rfc_cancelled))), (snd (told cf0 (given_text rfc_cancelled))), 3%nat.
    split; [apply told_history|]. split; [vm_compute; lia|]. split; [vm_compute; reflexivity|]. split.
    + vm_compute. intuition discriminate.
    + vm_compute. auto.
  - exists (fst (told cf0 (given_text rfc_zero))), (snd (told cf0 (given_text rfc_zero))), 3%nat.
    eexists. split; [apply told_history|]. split; [vm_compute; lia|]. split; [vm_compute; reflexivity|].
    split; [vm_compute; reflexivity|]. intros [X _]. vm_compute in X. now apply X.
Qed.
Print Assumptions C154_text_needed.

(** calls in form: events are made, assigned to, imported and adjusted; the
    imported one repeats on Mondays and Fridays *)
Definition formal : vevent :=
  mkV (Some "n1"%string) (Some (IFloat (p_at 732502 9))) (Some (IFloat (p_at 732502 10))) None None None None (Some "CONFIRMED"%string)
      None [] [] None None None (Some (mkRR (Some ["WEEKLY"%string]) (Some [2]) (Some [4]) None (Some ["MO"; "FR"]%string))).
Definition formal_ops : list op :=
  given_text formal ++ [OAssign 0 (p_spec (p_at 732600 9) (Some HOUR) true bob []); OAdjust 0].
Example C154_case : let s := fst (told cf0 formal_ops) in let h := snd (told cf0 formal_ops) in
  history cf0 s h /\ made h = 4%nat /\ (forall o n x, In (o, n, x) h -> op_form o)
  /\ exists q, e_recurrence (obj s 3) = Some q /\ r_weekdays q = [0; 4] /\ rule_form q
     /\ event_form (obj s 0) /\ e_duration (obj s 0) = Some DAY.
Proof.
  cbv zeta. split; [apply told_history|]. split; [vm_compute; reflexivity|].
  assert (OK : forall o n x, In (o, n, x) (snd (told cf0 formal_ops)) -> op_form o).
  { intros o n x I.
    assert (O : In o formal_ops).
    { replace formal_ops with (map (fun y : record => fst (fst y)) (snd (told cf0 formal_ops))) by (vm_compute; reflexivity).
      change o with ((fun y : record => fst (fst y)) (o, n, x)). now apply in_map. }
    clear I. revert o O. apply Forall_forall.
    assert (SF : forall t d al org at_, spec_form (p_spec t d al org at_)).
    { intros. split; [vm_compute; auto|]. split; [vm_compute; auto|]. intros r R. discriminate R. }
    unfold formal_ops, given_text, office. cbn [app].
    do 4 (constructor; [exact Logic.I|]). do 3 (constructor; [split; [apply SF|discriminate]|]).
    constructor; [|constructor; [split; [apply SF|discriminate]|constructor; [exact Logic.I|constructor]]].
    intros v [<-|[]]. split; [intros t T; injection T as <-; vm_compute; auto|]. split; [discriminate|].
    intros rr R. injection R as <-. split; [intros i l X; injection X as <- <-; lia|]. split; [now right|]. discriminate. }
  split; [exact OK|]. eexists. split; [vm_compute; reflexivity|]. split; [vm_compute; reflexivity|]. split; [|split].
  - assert (X := C154_kept cf0 _ _ 3 (told_history cf0 formal_ops)). destruct X as [(_ & _ & X) _]; [vm_compute; lia|exact OK|].
    apply X. vm_compute. reflexivity.
  - apply (C154_kept cf0 _ _ 0 (told_history cf0 formal_ops)); [vm_compute; lia|exact OK].
  - vm_compute. reflexivity.
Qed.

(** an event without length: specified without one, never made into whole days *)
Definition endless_ops : list op := office ++ [OSpecify 1 (p_spec (p_at 732600 9) None false bob []); OInvite 1 [bob]].
Example C154_no_length_case : let s := fst (told cf0 endless_ops) in let h := snd (told cf0 endless_ops) in
  history cf0 s h /\ (1 < made h)%nat /\ e_duration (obj s 1) = None.
Proof. cbv zeta. split; [apply told_history|]. split; [vm_compute; lia|vm_compute; reflexivity]. Qed.
