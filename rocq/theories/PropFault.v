(** Property theorems C147: when an import raises, and what (cal.py 690-873). *)
From Verif Require Import Base PyDate DateFacts Recurrent CalTime TimeProofs Event Storage ICal System
  QueryProofs EventProofs SpecProofs SystemProofs StoreProofs IdProofs ImportProofs PropEvent PropSystem
  ICalProofs ImportContent ImportTwice PropICal PropImport PropRepeat PropCalendar PropExact PropRound PropAgain PropEdge PropErrors PropAccept.
From Coq Require Import ZifyBool.
Ltac Zify.zify_post_hook ::= Z.div_mod_to_equations.
Local Opaque ord2ymd year_of month_of day_of ymd2ord days_in_month is_leap.

(** ** specification: what is wrong with a component, and what that raises *)
(** a time with a zone that is beyond the calendar here or in UTC *)
Definition bad_time (tz : Z -> Z) (t : ical_time) (x : exn) : Prop := x = OverflowError /\ ~ exists y, local_time tz t y.

(** first the start, then the end *)
Definition bad_times (tz : Z -> Z) (v : vevent) (x : exn) : Prop :=
  match v_dtstart v with
  | None => x = AssertionError
  | Some t => bad_time tz t x \/ ((exists y, local_time tz t y) /\ exists t1, v_dtend v = Some t1 /\ bad_time tz t1 x)
  end.

(** nobody known organizes, and the calendar's first attendee is not in the source *)
Definition bad_organizer (s : system) (c : nat) (v : vevent) (x : exn) : Prop :=
  x = KeyError /\ (forall i, v_organizer v = Some i -> source_knows s i = false)
  /\ exists i l, dkeys (cal s c) = i :: l /\ source_knows s i = false.

(** reading the component: times, organizer, rule ([refused], C99), in that order *)
Definition unreadable (cf : config) (s : system) (c : nat) (v : vevent) (x : exn) : Prop :=
  bad_times (cf_tz cf) v x
  \/ (forall y, ~ bad_times (cf_tz cf) v y) /\
     (bad_organizer s c v x
      \/ (forall y, ~ bad_organizer s c v y) /\ exists rr, v_rrule v = Some rr /\ refused rr x).

(** a line about an attendee that cannot be applied: a role that is not a
    documented one, or else somebody unknown *)
Definition bad_line (known : string -> bool) (a : string * option string * option string) (x : exn) : Prop :=
  let '(i, ps, ro) := a in
  (x = AssertionError /\ ~ In (text ro "REQ-PARTICIPANT") roles)
  \/ (x = AttributeError /\ In (text ro "REQ-PARTICIPANT") roles /\ known i = false).

Definition first_bad_line (s : system) (v : vevent) (x : exn) : Prop :=
  exists l1 a l2, v_attendees v = l1 ++ a :: l2 /\ bad_line (source_knows s) a x
    /\ forall b y, In b l1 -> ~ bad_line (source_knows s) b y.

(** a component that becomes a new event *)
Definition bad_new (cf : config) (s : system) (c : nat) (v : vevent) (x : exn) : Prop :=
  unreadable cf s c v x \/ (forall y, ~ unreadable cf s c v y) /\ first_bad_line s v x.

(** the line asks for what the event has *)
Definition settled_line (known : string -> bool) (e : event) (a : string * option string * option string) : Prop :=
  let '(i, ps, ro) := a in
  known i = true /\ dget (e_state e) i = Some (text ps "NEEDS-ACTION") /\ dget (e_role e) i = Some "REQ-PARTICIPANT"%string.

(** comparing the component with the event of the calendar reaches nobody: all
    attributes agree, and there is no organizer, or everything up to a line about
    somebody unknown is settled *)
Definition reaches_nobody (s : system) (v : vevent) (sp : spec) (e : event) : Prop :=
  attrs_agree sp e /\
  (s_organizer sp = None
   \/ settled_organizer sp e /\ exists l1 i ps ro l2, v_attendees v = l1 ++ (i, ps, ro) :: l2 /\ source_knows s i = false
        /\ forall b, In b l1 -> settled_line (source_knows s) e b).

(** a component about the event [e] of the calendar *)
Definition bad_known (cf : config) (s : system) (c : nat) (v : vevent) (e : event) (x : exn) : Prop :=
  unreadable cf s c v x
  \/ exists sp, import_spec (cf_tz cf) (source_knows s) (main_attendee s c) v = Ok sp /\
     ((reaches_nobody s v sp e /\ x = AttributeError)
      \/ (~ reaches_nobody s v sp e
          /\ ~ (attrs_agree sp e /\ settled_organizer sp e /\ forall a, In a (v_attendees v) -> settled_line (source_knows s) e a)
          /\ first_bad_line s v x)).

(** what is wrong with a component of a text; nothing is asked of one about an
    event that is in the store but not in the calendar *)
Definition bad_component (cf : config) (s : system) (c : nat) (p : period) (cr : option criteria) (v : vevent) (x : exn) : Prop :=
  (v_uid v = None /\ x = KeyError)
  \/ exists u, v_uid v = Some u /\
     ((exists r, visible s c p cr u /\ get_event s u = Ok r /\ bad_known cf s c v (obj s r) x)
      \/ (has_event s u = false /\ bad_new cf s c v x)).

(** ** proofs *)
Lemma decides_raise {A} (x : exn) : decides (@Raise A x) (fun y => y = x).
Proof. right. exists x. split; [reflexivity|reflexivity]. Qed.

Lemma float_time_decides tz t : decides (float_time tz t) (bad_time tz t).
Proof.
  destruct (float_time tz t) as [y|x|] eqn:F.
  - left. exists y. split; [reflexivity|]. intros z [_ N]. apply N. exists y. now apply float_local.
  - right. exists x. split; [reflexivity|]. assert (X : x = OverflowError).
    { destruct t as [d|y|y off]; cbn in F; try discriminate. unfold dt_add in F. destruct (dt_ok (y + - off)); [|cbn in F; congruence].
      cbn [rbind] in F. destruct (dt_ok _) in F; congruence. }
    subst x. intros z. split; [now intros [-> _]|]. intros ->. split; [reflexivity|]. intros (y & L). apply local_float in L. congruence.
  - exfalso. destruct t as [d|y|y off]; cbn in F; try discriminate. unfold dt_add in F. destruct (dt_ok (y + - off)); [|discriminate].
    cbn [rbind] in F. destruct (dt_ok _) in F; discriminate.
Qed.

Lemma times_decides tz v : decides (dtstart_duration tz v) (bad_times tz v).
Proof.
  unfold dtstart_duration, bad_times. destruct (v_dtstart v) as [t|]; [|apply decides_raise].
  eapply decides_ext.
  - apply decides_bind; [apply float_time_decides|]. intros y _. instantiate (1 := fun x => exists t1, v_dtend v = Some t1 /\ bad_time tz t1 x).
    destruct (v_dtend v) as [t1|].
    + eapply decides_ext; [apply decides_bind; [apply float_time_decides|]; intros z _; apply decides_ok|]. intros z. cbn beta. split.
      * intros [X|[_ []]]. eauto.
      * intros (t2 & E & X). injection E as <-. now left.
    + destruct (v_duration v) as [dd|]; (left; eexists; split; [reflexivity|]; intros z (t1 & X & _); discriminate).
  - intros x. cbn beta. pose proof (float_time_decides tz t) as D. split.
    + intros [X|[N X]]; [now left|]. right. split; [|exact X]. destruct D as [(y & F & _)|(y & F & Q)]; [exists y; now apply float_local|].
      exfalso. apply (N y). now apply Q.
    + intros [X|[(y & L) X]]; [now left|]. right. split; [|exact X]. intros z [_ NL]. apply NL. eauto.
Qed.

Lemma main_decides s c : decides (main_attendee s c) (fun x => x = KeyError /\ exists i l, dkeys (cal s c) = i :: l /\ source_knows s i = false).
Proof.
  unfold main_attendee, source_knows, source_get. destruct (dkeys (cal s c)) as [|i l].
  - left. eexists. split; [reflexivity|]. intros y (_ & i & l & E & _). discriminate.
  - destruct (dget (sys_source s) i) eqn:D.
    + left. eexists. split; [reflexivity|]. intros y (_ & i' & l' & E & X). injection E as <- <-. rewrite D in X. discriminate.
    + right. exists KeyError. split; [reflexivity|]. intros y. split; [now intros [-> _]|]. intros ->. split; [reflexivity|]. exists i, l. now rewrite D.
Qed.

Lemma organizer_decides s c v : decides (match (match v_organizer v with Some i => if source_knows s i then Some i else None | None => None end) with
    | Some i => Ok (Some i) | None => main_attendee s c end) (bad_organizer s c v).
Proof.
  unfold bad_organizer. pose proof (main_decides s c) as D.
  destruct (v_organizer v) as [i|].
  - destruct (source_knows s i) eqn:K.
    + left. eexists. split; [reflexivity|]. intros y (_ & X & _). specialize (X i eq_refl). congruence.
    + eapply decides_ext; [exact D|]. intros y. split; [intros [-> X]; repeat split; [|exact X]; intros j J; injection J as <-; exact K|tauto].
  - eapply decides_ext; [exact D|]. intros y. split; [intros [-> X]; repeat split; [|exact X]; discriminate|tauto].
Qed.

Lemma rule_decides rr : decides (import_rule rr) (refused rr).
Proof.
  destruct (import_rule rr) as [r|x|] eqn:E.
  - left. exists r. split; [reflexivity|]. intros y Y. apply C54_raises in Y. congruence.
  - right. exists x. split; [reflexivity|]. intros y. rewrite <- C54_raises, E. split; [now injection 1|now intros ->].
  - exfalso. revert E. unfold import_rule.
    assert (W : forall l, rmap weekday_index l <> OutOfFuel).
    { induction l as [|d l IH]; [discriminate|]. cbn [rmap]. destruct (weekday_index d) as [w| |] eqn:D; cbn [rbind]; [|discriminate|].
      - destruct (rmap weekday_index l); [discriminate|discriminate|congruence].
      - revert D. unfold weekday_index. repeat (destruct (String.eqb d _); [discriminate|]). discriminate. }
    assert (V : forall k i c u ex wd m, mk_rule k i c u ex wd m <> OutOfFuel).
    { intros. unfold mk_rule, validate, basic_validate. destruct k; cbn; destruct c, u; cbn; try discriminate;
        repeat (match goal with |- context [if ?q then _ else _] => destruct q; cbn; try discriminate end). }
    assert (B : base_rule rr <> OutOfFuel).
    { unfold base_rule. destruct (rr_freq rr) as [[|f l]|]; [discriminate| |discriminate]. cbn [head_of rbind].
      destruct (String.eqb f "DAILY"); [apply V|]. destruct (String.eqb f "YEARLY"); [apply V|].
      destruct (String.eqb f "WEEKLY"); [destruct (rr_byday rr) as [days|]; [|apply V]; specialize (W days); destruct (rmap weekday_index days); [apply V|discriminate|congruence]|].
      destruct (String.eqb f "MONTHLY"); [|discriminate]. destruct (rr_byday rr) as [[|[|a d] days]|]; [discriminate|discriminate|apply V|apply V]. }
    destruct (base_rule rr) as [r| |]; [|discriminate|congruence]. cbn [rbind]. unfold opt_head.
    destruct (rr_interval rr) as [[|? ?]|], (rr_count rr) as [[|? ?]|], (rr_until rr) as [[|? ?]|]; discriminate.
Qed.

Lemma spec_decides cf s c v : decides (import_spec (cf_tz cf) (source_knows s) (main_attendee s c) v) (unreadable cf s c v).
Proof.
  unfold import_spec. eapply decides_ext.
  - apply decides_bind; [apply times_decides|]. intros [[t d] a] _. apply decides_bind; [apply organizer_decides|]. intros o _.
    apply decides_bind with (P := fun x => exists rr, v_rrule v = Some rr /\ refused rr x); [|intros r _; apply decides_ok].
    destruct (v_rrule v) as [rr|].
    + eapply decides_ext; [apply decides_bind; [apply rule_decides|]; intros r _; apply decides_ok|]. intros y. cbn beta. split.
      * intros [X|[_ []]]. eauto.
      * intros (rr' & E & X). injection E as <-. now left.
    + left. eexists. split; [reflexivity|]. intros y (rr & E & _). discriminate.
  - intros x. unfold unreadable. cbn beta. tauto.
Qed.

(** *** applying the lines *)
Lemma bad_line_dec known a : (exists x, bad_line known a x) \/ forall y, ~ bad_line known a y.
Proof.
  destruct a as [[i ps] ro]. cbn [bad_line]. destruct (in_dec string_dec (text ro "REQ-PARTICIPANT") roles) as [I|N]; [|left; eauto].
  destruct (known i) eqn:K; [right|left; eauto]. intros y [[_ X]|(_ & _ & X)]; [contradiction|congruence].
Qed.

Definition first_bad (known : string -> bool) (l : list (string * option string * option string)) (x : exn) : Prop :=
  exists l1 a l2, l = l1 ++ a :: l2 /\ bad_line known a x /\ forall b y, In b l1 -> ~ bad_line known b y.

Lemma lines_decide known l : forall e, let m := set_attendees e (map (line_entry known) l) in
  decides (snd m) (first_bad known l) /\ snd (fst m) = [].
Proof.
  induction l as [|[[i ps] ro] l IH]; intros e; cbv zeta.
  - split; [|reflexivity]. left. exists tt. split; [reflexivity|]. intros y (l1 & a & l2 & X & _). destruct l1; discriminate.
  - cbn [map].
    assert (ST : set_attendees e (line_entry known (i, ps, ro) :: map (line_entry known) l)
      = mbind (entry_step e (if known i then Some i else None) (text ro "REQ-PARTICIPANT") (Some (text ps "NEEDS-ACTION")))
          (fun e2 => set_attendees e2 (map (line_entry known) l))) by reflexivity.
    rewrite ST. clear ST.
    assert (BAD : forall x, bad_line known (i, ps, ro) x -> 
       entry_step e (if known i then Some i else None) (text ro "REQ-PARTICIPANT") (Some (text ps "NEEDS-ACTION")) = (e, [], Raise x)).
    { intros x X. unfold entry_step, set_role. cbn [bad_line] in X. destruct X as [[-> X]|(-> & I & K)].
      - replace (str_in (text ro "REQ-PARTICIPANT") roles) with false; [reflexivity|]. symmetry. apply not_true_iff_false. now rewrite str_in_iff.
      - replace (str_in (text ro "REQ-PARTICIPANT") roles) with true by (symmetry; now apply str_in_iff). rewrite K. reflexivity. }
    destruct (bad_line_dec known (i, ps, ro)) as [[x X]|N].
    + rewrite (BAD x X). split; [|reflexivity]. right. exists x. split; [reflexivity|]. intros y. split.
      * intros (l1 & a & l2 & E & Y & Z). destruct l1 as [|b l1]; injection E as <- E; [|destruct (Z (i, ps, ro) x (or_introl eq_refl) X)].
        pose proof (BAD y Y) as B. rewrite (BAD x X) in B. congruence.
      * intros ->. exists [], (i, ps, ro), l. split; [reflexivity|]. split; [exact X|]. intros b y [].
    + assert (G : In (text ro "REQ-PARTICIPANT") roles /\ known i = true).
      { destruct (in_dec string_dec (text ro "REQ-PARTICIPANT") roles) as [I|NI]; [|exfalso; apply (N AssertionError); left; auto].
        split; [exact I|]. destruct (known i) eqn:K; [reflexivity|]. exfalso. apply (N AttributeError). right. auto. }
      destruct G as [I K]. rewrite K, entry_step_ok by exact I. rewrite mbind_ok.
      match goal with |- context [set_attendees ?q _] => destruct (IH q) as [D S]; destruct (set_attendees q (map (line_entry known) l)) as [[e' n'] r'] end.
      cbn [fst snd app] in *. subst n'. split; [|reflexivity]. eapply decides_ext; [exact D|]. intros y. split.
      * intros (l1 & a & l2 & -> & X & Z). exists ((i, ps, ro) :: l1), a, l2. split; [reflexivity|]. split; [exact X|].
        intros b z [<-|B]; [apply N|now apply Z].
      * intros (l1 & a & l2 & E & X & Z). destruct l1 as [|b l1]; injection E as <- E; [destruct (N y X)|]. exists l1, a, l2.
        split; [exact E|]. split; [exact X|]. intros b z B. apply Z. now right.
Qed.

Lemma apply_decides cf s c v sp e : import_spec (cf_tz cf) (source_knows s) (main_attendee s c) v = Ok sp ->
  decides (snd (set_on_object sp e)) (first_bad_line s v) /\ snd (fst (set_on_object sp e)) = [].
Proof. intros E. rewrite set_on_object_eq, (import_spec_entries _ _ _ _ _ E). apply lines_decide. Qed.

Lemma new_decides cf s c v u : decides (rbind (import_spec (cf_tz cf) (source_knows s) (main_attendee s c) v) (new_event u)) (bad_new cf s c v).
Proof.
  unfold bad_new. apply decides_bind; [apply spec_decides|]. intros sp E. unfold new_event.
  destruct (apply_decides cf s c v sp (blank u) E) as [D _]. destruct (set_on_object sp (blank u)) as [[e n] r]. cbn [fst snd] in D.
  destruct D as [([] & -> & N)|(x & -> & X)]; [left; eexists; split; [reflexivity|exact N]|right; exists x; split; [reflexivity|exact X]].
Qed.

Lemma modify_decides cf s c v sp e : import_spec (cf_tz cf) (source_knows s) (main_attendee s c) v = Ok sp ->
  decides (will_modify sp e) (fun x => reaches_nobody s v sp e /\ x = AttributeError).
Proof.
  intros E.
  assert (K : forall l1, Forall (settled_entry e) (map (line_entry (source_knows s)) l1) <-> forall b, In b l1 -> settled_line (source_knows s) e b).
  { intros l1. rewrite Forall_forall. split.
    - intros H [[i ps] ro] B. specialize (H _ (in_map (line_entry (source_knows s)) _ _ B)). cbn in H. destruct H as (j & J & S & R).
      cbn [settled_line]. destruct (source_knows s i) eqn:KI; [|discriminate]. injection J as <-. auto.
    - intros H x X. apply in_map_iff in X as ([[i ps] ro] & <- & B). specialize (H _ B). cbn [settled_line] in H. destruct H as (KI & S & R).
      cbn [line_entry settled_entry]. rewrite KI. eauto. }
  assert (R : forall x, will_modify sp e = Raise x <-> reaches_nobody s v sp e /\ x = AttributeError).
  { intros x. rewrite C49_raises_iff, (import_spec_entries _ _ _ _ _ E). unfold reaches_nobody. split.
    - intros (-> & A & H). split; [|reflexivity]. split; [exact A|]. destruct H as [O|(O & l1 & ro & st & l2 & EQ & F)]; [now left|right].
      split; [exact O|]. apply map_eq_app in EQ as (v1 & v2 & EV & E1 & E2). destruct v2 as [|[[i ps] ro'] v2]; [discriminate|].
      cbn [map] in E2. injection E2 as H1 H2. cbn [line_entry] in H1. exists v1, i, ps, ro', v2. split; [exact EV|].
      split; [destruct (source_knows s i); congruence|]. rewrite <- E1 in F. now apply K.
    - intros ((A & H) & ->). split; [reflexivity|]. split; [exact A|]. destruct H as [O|(O & l1 & i & ps & ro & l2 & EQ & KI & F)]; [now left|right].
      split; [exact O|]. rewrite EQ, map_app. cbn [map line_entry]. rewrite KI. do 4 eexists. split; [reflexivity|]. now apply K. }
  destruct (will_modify sp e) as [b|x|] eqn:W.
  - left. exists b. split; [reflexivity|]. intros y Y. apply R in Y. discriminate.
  - right. exists x. split; [reflexivity|]. intros y. rewrite <- R. split; [now injection 1|now intros ->].
  - exfalso. destruct (C49_answers sp e) as [[b X]|X]; congruence.
Qed.

(** what happens to a component about an event of the calendar *)
Definition known_result (cf : config) (s : system) (c : nat) (v : vevent) (e : event) : res unit :=
  let* sp := import_spec (cf_tz cf) (source_knows s) (main_attendee s c) v in
  let* b := will_modify sp e in if b : bool then snd (set_on_object sp e) else Ok tt.

Lemma known_decides cf s c v e : decides (known_result cf s c v e) (bad_known cf s c v e).
Proof.
  unfold known_result, bad_known. pose proof (spec_decides cf s c v) as D.
  destruct (import_spec (cf_tz cf) (source_knows s) (main_attendee s c) v) as [sp|x|] eqn:E; cbn [rbind].
  - assert (NU : forall y, ~ unreadable cf s c v y).
    { destruct D as [(a & _ & N)|(x & X & _)]; [exact N|discriminate]. }
    eapply decides_ext with (P := fun x => (reaches_nobody s v sp e /\ x = AttributeError)
      \/ (~ reaches_nobody s v sp e
          /\ ~ (attrs_agree sp e /\ settled_organizer sp e /\ forall a, In a (v_attendees v) -> settled_line (source_knows s) e a)
          /\ first_bad_line s v x)).
    2:{ intros y. split; [intros X; right; exists sp; auto|]. intros [X|(sp' & E' & X)]; [destruct (NU y X)|]. injection E' as <-. exact X. }
    pose proof (modify_decides cf s c v sp e E) as M. pose proof (C49_no_iff sp e) as NO.
    assert (K : Forall (settled_entry e) (s_attendees sp) <-> forall a, In a (v_attendees v) -> settled_line (source_knows s) e a).
    { rewrite (import_spec_entries _ _ _ _ _ E), Forall_forall. split.
      - intros H [[i ps] ro] B. specialize (H _ (in_map (line_entry (source_knows s)) _ _ B)). cbn in H. destruct H as (j & J & S & R).
        cbn [settled_line]. destruct (source_knows s i) eqn:KI; [|discriminate]. injection J as <-. auto.
      - intros H x X. apply in_map_iff in X as ([[i ps] ro] & <- & B). specialize (H _ B). cbn [settled_line] in H. destruct H as (KI & S & R).
        cbn [line_entry settled_entry]. rewrite KI. eauto. }
    rewrite K in NO. clear K.
    destruct M as [(b & W & NM)|(x & W & XM)]; rewrite W in NO |- *; cbn [rbind].
    + assert (NR : ~ reaches_nobody s v sp e) by (intros R; exact (NM AttributeError (conj R eq_refl))). destruct b.
      * destruct (apply_decides cf s c v sp e E) as [AD _]. eapply decides_ext; [exact AD|]. intros y. split; [intros X; right|intros [[X _]|(_ & _ & X)]; [contradiction|exact X]].
        split; [exact NR|]. split; [|exact X]. intros Y. apply NO in Y. discriminate.
      * left. exists tt. split; [reflexivity|]. intros y [[X _]|(_ & X & _)]; [contradiction|]. apply X. now apply NO.
    + right. exists x. split; [reflexivity|]. assert (R : reaches_nobody s v sp e) by (apply (proj2 (XM x) eq_refl)). intros y. rewrite <- XM. tauto.
  - right. exists x. split; [reflexivity|]. destruct D as [(a & X & _)|(z & X & U)]; [discriminate|]. injection X as <-. intros y. rewrite <- U.
    split; [intros [X|(sp & X & _)]; [exact X|discriminate]|auto].
  - exfalso. destruct D as [(a & X & _)|(z & X & _)]; discriminate.
Qed.

(** *** the text as a whole *)
Definition bad_in (cf : config) (s : system) (c : nat) (known : list string) (v : vevent) (x : exn) : Prop :=
  (v_uid v = None /\ x = KeyError)
  \/ exists u, v_uid v = Some u /\
     ((exists r, In u known /\ dget (sys_store s) u = Some r /\ bad_known cf s c v (obj s r) x)
      \/ (~ In u known /\ has_event s u = false /\ bad_new cf s c v x)).

Lemma one_decides cf s c known v : (forall k, In k known -> has_event s k = true) ->
  decides (srs (import_one cf s c known v)) (bad_in cf s c known v).
Proof.
  intros KN. unfold import_one, bad_in. destruct (v_uid v) as [u|].
  2:{ right. exists KeyError. split; [reflexivity|]. intros y. split; [intros [[_ X]|(u & X & _)]; [exact X|discriminate]|auto]. }
  destruct (str_in u known) eqn:K.
  - apply str_in_iff in K. pose proof (KN u K) as HE. rewrite has_event_dget in HE. destruct (dget (sys_store s) u) as [r|] eqn:D; [|discriminate].
    assert (R : decides (known_result cf s c v (obj s r)) (bad_known cf s c v (obj s r))) by apply known_decides.
    eapply decides_ext with (P := bad_known cf s c v (obj s r)).
    2:{ intros y. split; [intros X; right; exists u; split; [reflexivity|]; left; exists r; auto|].
        intros [[X _]|(u' & E & [(r' & _ & D' & X)|(N & _)])]; [discriminate| |]; injection E as <-; [|contradiction].
        assert (r' = r) by congruence. now subst r'. }
    revert R. unfold known_result, import_existing, get_event. rewrite D, !sbind_slift.
    destruct (import_spec (cf_tz cf) (source_knows s) (main_attendee s c) v) as [sp|x|]; cbn [rbind].
    + rewrite sbind_slift. destruct (will_modify sp (obj s r)) as [b|x|]; cbn [rbind].
      * destruct b.
        -- unfold on_event. destruct (set_on_object sp (obj s r)) as [[e' n'] q]. cbn [snd]. intros [([] & -> & N)|(x & -> & X)].
           ++ left. exists u. split; [reflexivity|exact N].
           ++ right. exists x. split; [reflexivity|exact X].
        -- intros [(a & _ & N)|(x & X & _)]; [left; exists u; split; [reflexivity|exact N]|discriminate].
      * intros [(a & X & _)|(x' & E & X)]; [discriminate|]. right. exists x. split; [reflexivity|]. injection E as <-. exact X.
      * intros [(a & X & _)|(x' & E & _)]; discriminate.
    + intros [(a & X & _)|(x' & E & X)]; [discriminate|]. right. exists x. split; [reflexivity|]. injection E as <-. exact X.
    + intros [(a & X & _)|(x' & E & _)]; discriminate.
  - assert (NK : ~ In u known) by (rewrite <- str_in_iff; congruence). destruct (has_event s u) eqn:HE.
    + left. exists u. split; [reflexivity|]. intros y [[X _]|(u' & E & [(r' & X & _)|(_ & X & _)])]; [discriminate| |]; injection E as <-; [contradiction|congruence].
    + pose proof (new_decides cf s c v u) as R.
      eapply decides_ext with (P := bad_new cf s c v).
      2:{ intros y. split; [intros X; right; exists u; split; [reflexivity|]; right; auto|].
          intros [[X _]|(u' & E & [(r' & X & _)|(_ & _ & X)])]; [discriminate| |]; injection E as <-; [contradiction|exact X]. }
      revert R. unfold import_new. rewrite sbind_slift. destruct (import_spec (cf_tz cf) (source_knows s) (main_attendee s c) v) as [sp|x|]; cbn [rbind].
      * unfold create_event. destruct (new_event u sp) as [e|x|].
        -- intros [(a & _ & N)|(x & X & _)]; [left; exists u; split; [reflexivity|exact N]|discriminate].
        -- intros [(a & X & _)|(x' & E & X)]; [discriminate|]. right. exists x. split; [reflexivity|]. injection E as <-. exact X.
        -- intros [(a & X & _)|(x' & E & _)]; discriminate.
      * intros [(a & X & _)|(x' & E & X)]; [discriminate|]. right. exists x. split; [reflexivity|]. injection E as <-. exact X.
      * intros [(a & X & _)|(x' & E & _)]; discriminate.
Qed.

(** a component that cannot be applied announces nothing, creates nothing, and
    changes at most the event it is about *)
Lemma one_stops cf s c known v x : (forall k, In k known -> has_event s k = true) -> srs (import_one cf s c known v) = Raise x ->
  let m := import_one cf s c known v in
  snt m = [] /\ sys_store (sst m) = sys_store s /\ sys_source (sst m) = sys_source s /\ sys_cals (sst m) = sys_cals s
  /\ List.length (sys_heap (sst m)) = List.length (sys_heap s)
  /\ forall r, (forall u, v_uid v = Some u -> In u known -> dget (sys_store s) u <> Some r) -> obj (sst m) r = obj s r.
Proof.
  intros KN. cbv zeta. unfold import_one. destruct (v_uid v) as [u|]; [|intros _; repeat split].
  destruct (str_in u known) eqn:K.
  - apply str_in_iff in K. pose proof (KN u K) as HE. rewrite has_event_dget in HE. destruct (dget (sys_store s) u) as [r|] eqn:D; [|discriminate].
    unfold import_existing, get_event. rewrite D, !sbind_slift.
    destruct (import_spec (cf_tz cf) (source_knows s) (main_attendee s c) v) as [sp|y|] eqn:E; [|intros _; repeat split..].
    rewrite sbind_slift. destruct (will_modify sp (obj s r)) as [[|]|y|]; [|intros _; repeat split..].
    destruct (apply_decides cf s c v sp (obj s r) E) as [_ SI]. unfold on_event. destruct (set_on_object sp (obj s r)) as [[e' n'] q]. cbn [fst snd] in SI. subst n'.
    destruct q as [[]|y|]; [discriminate| |]; intros _; (split; [reflexivity|]); unfold sst; cbn [sbind fst sys_store sys_source sys_cals sys_heap with_heap];
      (do 3 (split; [reflexivity|])); (split; [apply replace_nth_length|]); intros r' N; unfold obj, with_heap; cbn [sys_heap];
      rewrite replace_nth_get; (destruct (Nat.eqb_spec r' r) as [->|]; [now destruct (N u eq_refl K)|reflexivity]).
  - destruct (has_event s u); [discriminate|]. unfold import_new. rewrite sbind_slift.
    destruct (import_spec (cf_tz cf) (source_knows s) (main_attendee s c) v) as [sp|y|]; [|intros _; repeat split..].
    unfold create_event. destruct (new_event u sp) as [e|y|]; [discriminate|intros _; repeat split..].
Qed.

Lemma bad_in_moves cf s s' c known us v x : store_inv s -> frame us us s s' -> (forall u, v_uid v = Some u -> ~ In u us) ->
  (bad_in cf s' c known v x <-> bad_in cf s c known v x).
Proof.
  intros I F N. pose proof F as (_ & _ & _ & _ & FS & FC). destruct (same_source s s' c FS FC) as [SK SM].
  assert (CA : cal s' c = cal s c) by (unfold cal; now rewrite FC).
  assert (UR : forall y, unreadable cf s' c v y <-> unreadable cf s c v y).
  { intros y. unfold unreadable, bad_organizer. rewrite SK, CA. reflexivity. }
  assert (FB : forall y, first_bad_line s' v y <-> first_bad_line s v y) by (intros y; unfold first_bad_line; now rewrite SK).
  assert (BN : bad_new cf s' c v x <-> bad_new cf s c v x).
  { unfold bad_new. rewrite UR, FB. split; intros [X|[X Y]]; [now left|right|now left|right]; (split; [|exact Y]); intros y Z; apply (X y); now apply UR. }
  assert (BK : forall e, bad_known cf s' c v e x <-> bad_known cf s c v e x).
  { intros e. unfold bad_known, reaches_nobody. rewrite UR, SK, SM. setoid_rewrite FB. reflexivity. }
  unfold bad_in. destruct (v_uid v) as [w|].
  2:{ split; (intros [X|(w & X & _)]; [now left|discriminate]). }
  pose proof (N w eq_refl) as NI. destruct (frame_other _ _ s s' w I F NI NI) as [G1 G2].
  assert (HE : has_event s' w = has_event s w) by (rewrite !has_event_dget; now rewrite G1).
  split; (intros [[X _]|(w' & E & H)]; [discriminate|]; injection E as <-; right; exists w; split; [reflexivity|]); rewrite HE, G1, BN in *;
    (destruct H as [(r & K & D & B)|H]; [left; exists r; split; [exact K|]; split; [exact D|]|now right]).
  - apply BK. now rewrite (G2 r D) in B.
  - apply BK. now rewrite (G2 r D).
Qed.

Lemma loop_decides cf c known vs : forall s, store_inv s -> (forall k, In k known -> has_event s k = true) -> NoDup (import_uids vs) ->
  decides (srs (import_loop cf s c known vs)) (fun x => exists v1 v v2, vs = v1 ++ v :: v2 /\ bad_in cf s c known v x
     /\ forall w y, In w v1 -> ~ bad_in cf s c known w y).
Proof.
  induction vs as [|w vs IH]; intros s I KN ND.
  - left. exists []. split; [reflexivity|]. intros y (v1 & v & v2 & E & _). destruct v1; discriminate.
  - cbn [import_loop]. pose proof (one_decides cf s c known w KN) as D.
    pose proof (import_one_frame1 cf s c known w) as F1. pose proof (import_one_tracks cf s c known w I) as (I1 & _).
    destruct (import_one cf s c known w) as [[s1 n1] r1] eqn:ST. unfold srs in D. cbn [snd] in D. unfold sst in F1, I1. cbn [fst] in F1, I1.
    destruct D as [(a & -> & N)|(x & -> & X)].
    + assert (V : v_uid w = Some a).
      { pose proof (import_one_ok cf s c known w a KN) as Q. rewrite ST in Q. now destruct (Q eq_refl). }
      unfold import_uids in F1, ND. cbn [flat_map] in F1, ND. rewrite V in F1, ND. cbn [app] in F1, ND. inversion ND as [|? ? N1 N2]; subst.
      assert (KN1 : forall k, In k known -> has_event s1 k = true) by (intros k Hk; eapply frame_has; [exact F1|auto]).
      assert (MV : forall v y, In v vs -> (bad_in cf s1 c known v y <-> bad_in cf s c known v y)).
      { intros v y Hv. apply (bad_in_moves cf s s1 c known [a] v y I F1). intros u V' [<-|[]]. apply N1. now apply (in_uids vs v). }
      assert (Q : decides (srs (sbind (s1, n1, Ok a) (fun s uid => sbind (import_loop cf s c known vs) (fun s uids => sret s (uid :: uids)))))
        (fun x => exists v1 v v2, vs = v1 ++ v :: v2 /\ bad_in cf s1 c known v x /\ forall w y, In w v1 -> ~ bad_in cf s1 c known w y)).
      { specialize (IH s1 I1 KN1 N2). rewrite sbind_ok. unfold srs at 1. cbn [snd]. destruct (import_loop cf s1 c known vs) as [[s2 n2] r2]. unfold srs in IH. cbn [snd] in IH.
        destruct IH as [(b & -> & M)|(x & -> & M)]; [left; eexists|right; exists x]; (split; [reflexivity|exact M]). }
      eapply decides_ext; [exact Q|]. intros y. cbn beta. split.
      * intros (v1 & v & v2 & E & B & G). exists (w :: v1), v, v2. split; [now rewrite E|].
        split; [apply MV; [rewrite E; apply in_app_iff; right; now left|exact B]|]. intros w' z [<-|W]; [apply N|].
        intros Z. apply (G w' z W). apply MV; [rewrite E; apply in_app_iff; now left|exact Z].
      * intros (v1 & v & v2 & E & B & G). destruct v1 as [|w' v1]; injection E as <- E; [destruct (N y B)|]. exists v1, v, v2. split; [exact E|].
        split; [apply MV; [rewrite E; apply in_app_iff; right; now left|exact B]|]. intros w' z W Z.
        apply (G w' z (or_intror W)). apply MV; [rewrite E; apply in_app_iff; now left|exact Z].
    + right. exists x. split; [reflexivity|]. intros y. split.
      * intros (v1 & v & v2 & E & B & G). destruct v1 as [|w' v1]; injection E as <- E; [now apply X|].
        exfalso. apply (G w x (or_introl eq_refl)). now apply X.
      * intros ->. exists [], w, vs. split; [reflexivity|]. split; [now apply X|]. intros ? ? [].
Qed.

(** ** theorems *)
(** An import of a text with distinct ids raises exactly what listing the calendar
    raises, else what reading the text raises, else what the first component raises
    that something is wrong with. *)
Theorem C147_raises cf s c parsed p cr sync x : reachable cf s -> (forall vs, parsed = Ok (Some vs) -> NoDup (import_uids vs)) ->
  (srs (step cf s (OImport c parsed p cr sync)) = Raise x <->
   cal_events s c p cr = Raise x
   \/ (exists evs, cal_events s c p cr = Ok evs)
      /\ (parsed = Raise x
          \/ exists before v after, parsed = Ok (Some (before ++ v :: after)) /\ bad_component cf s c p cr v x
             /\ forall w y, In w before -> ~ bad_component cf s c p cr w y)).
Proof.
  intros R ND. pose proof (reachable_store cf s R) as I. cbn [step]. unfold import_cal. rewrite sbind_slift.
  destruct (cal_events s c p cr) as [evs|y|] eqn:E.
  2:{ unfold srs. cbn [snd]. split; [intros X; left; congruence|]. intros [X|[(evs & X) _]]; [congruence|discriminate]. }
  2:{ unfold srs. cbn [snd]. split; [discriminate|]. intros [X|[(evs & X) _]]; discriminate. }
  rewrite sbind_slift. transitivity (parsed = Raise x \/ exists before v after, parsed = Ok (Some (before ++ v :: after)) /\ bad_component cf s c p cr v x
             /\ forall w y, In w before -> ~ bad_component cf s c p cr w y).
  2:{ split; [intros X; right; split; [eauto|exact X]|]. intros [X|[_ X]]; [discriminate|exact X]. }
  destruct parsed as [[vs|]|y|].
  - specialize (ND vs eq_refl). set (known := nodup string_dec (map e_uid evs)).
    assert (KN : forall k, In k known -> has_event s k = true) by exact (known_stored s c p cr evs I E).
    pose proof (loop_decides cf c known vs s I KN ND) as D.
    assert (VIS : forall u, visible s c p cr u <-> In u known).
    { intros u. unfold known. rewrite known_in. split; [intros (evs' & e & E' & He & U); assert (evs' = evs) by congruence; subst; eauto|].
      intros (e & He & U). exists evs, e. auto. }
    assert (BI : forall v y, bad_component cf s c p cr v y <-> bad_in cf s c known v y).
    { intros v y. unfold bad_component, bad_in. split; (intros [X|(u & V & X)]; [now left|]); right; exists u; (split; [exact V|]).
      - destruct X as [(r & VI & G & B)|(H & B)]; [left; exists r; split; [now apply VIS|]; split; [|exact B]|right; split; [|split; [exact H|exact B]]].
        + unfold get_event in G. destruct (dget (sys_store s) u); [congruence|discriminate].
        + intros K. rewrite (KN u K) in H. discriminate.
      - destruct X as [(r & K & G & B)|(_ & H & B)]; [left; exists r; split; [now apply VIS|]; split; [|exact B]|right; auto].
        unfold get_event. now rewrite G. }
    assert (L : srs (import_loop cf s c known vs) = Raise x <-> exists before v after, Ok (Some vs) = Ok (Some (before ++ v :: after)) /\ bad_component cf s c p cr v x
             /\ forall w y, In w before -> ~ bad_component cf s c p cr w y).
    { rewrite (decides_iff _ _ x D). split; intros (v1 & v & v2 & EQ & B & G); exists v1, v, v2.
      - split; [now rewrite EQ|]. split; [now apply BI|]. intros w y W X. apply (G w y W). now apply BI.
      - injection EQ as EQ. split; [exact EQ|]. split; [now apply BI|]. intros w y W X. apply (G w y W). now apply BI. }
    split.
    + intros X. right. apply L. pose proof (import_loop_ok cf c known vs s) as LO. pose proof (import_loop_tracks cf c known vs s I) as (I1 & _).
      destruct (import_loop cf s c known vs) as [[s1 n1] [us|y|]] eqn:ST.
      * exfalso. destruct (LO us KN eq_refl) as (_ & _ & HS). rewrite sbind_ok in X. unfold srs in X. cbn [snd] in X. destruct sync; [|discriminate].
        pose proof (import_loop_frame known (import_uids vs) cf c vs (fun u Hu => Hu) s) as F. rewrite ST in F. unfold sst in F, I1. cbn [fst] in F, I1.
        destruct (delete_loop_ok (filter (fun u => negb (str_in u us)) known) s1 I1) as (s2 & DL & _).
        -- apply NoDup_filter. apply NoDup_nodup.
        -- intros u U. apply filter_In in U as [U _]. eapply frame_has; [exact F|now apply KN].
        -- rewrite DL in X. discriminate.
      * unfold srs in *. cbn in *. congruence.
      * discriminate.
    + intros [X|X]; [discriminate|]. apply L in X. destruct (import_loop cf s c known vs) as [[s1 n1] r1]. unfold srs in X. cbn [snd] in X. subst r1. reflexivity.
  - unfold srs. cbn. split; [discriminate|]. intros [X|(b & v & a & X & _)]; discriminate.
  - unfold srs. cbn. split; [intros X; left; congruence|]. intros [X|(b & v & a & X & _)]; [congruence|discriminate].
  - unfold srs. cbn. split; [discriminate|]. intros [X|(b & v & a & X & _)]; discriminate.
Qed.
Print Assumptions C147_raises.

Lemma nodup_front {A} (l1 l2 : list A) : NoDup (l1 ++ l2) -> NoDup l1.
Proof.
  induction l1 as [|x l1 IH]; [constructor|]. cbn [app]. intros H. inversion H as [|? ? N M]; subst. constructor; [|now apply IH].
  intros X. apply N. apply in_app_iff. now left.
Qed.

(** What an import that raises leaves behind: the components before have been
    dealt with, as if they had been the text (without synchronization); of the
    others, at most the event of the first one has changed; nothing else is announced
    and nothing is deleted. *)
Theorem C147_left cf s c before v after p cr sync x s' n : reachable cf s -> NoDup (import_uids (before ++ v :: after)) ->
  bad_component cf s c p cr v x -> (forall w y, In w before -> ~ bad_component cf s c p cr w y) ->
  step cf s (OImport c (Ok (Some (before ++ v :: after))) p cr sync) = (s', n, Raise x) ->
  (exists evs, cal_events s c p cr = Ok evs) ->
  exists s1, step cf s (OImport c (Ok (Some before)) p cr false) = (s1, n, Ok tt)
    /\ sys_store s' = sys_store s1 /\ sys_source s' = sys_source s1 /\ sys_cals s' = sys_cals s1
    /\ (forall r, (forall u, v_uid v = Some u -> visible s c p cr u -> get_event s u <> Ok r) -> obj s' r = obj s1 r)
    /\ (forall u, has_event s u = true -> has_event s' u = true)
    /\ (forall u, ~ In u (import_uids before) -> dget (sys_store s') u = dget (sys_store s) u).
Proof.
  intros R ND BV G ST (evs & E). pose proof (reachable_store cf s R) as I. set (known := nodup string_dec (map e_uid evs)).
  assert (KN : forall k, In k known -> has_event s k = true) by exact (known_stored s c p cr evs I E).
  assert (ND1 : NoDup (import_uids before) /\ ~ In (v_uid v) (map Some (import_uids before))).
  { unfold import_uids in *. rewrite flat_map_app in ND. cbn [flat_map] in ND. destruct (v_uid v) as [u|].
    - cbn [app] in ND. split; [now apply nodup_front in ND|]. apply NoDup_remove_2 in ND. intros X. apply in_map_iff in X as (u' & U & X). injection U as <-.
      apply ND. apply in_app_iff. now left.
    - cbn [app] in ND. split; [now apply nodup_front in ND|]. intros X. apply in_map_iff in X as (u' & U & X). discriminate. }
  destruct ND1 as [ND1 NV].
  (* the loop over a text in two parts *)
  assert (CAT : forall l1 l2 s0, import_loop cf s0 c known (l1 ++ l2) = sbind (import_loop cf s0 c known l1) (fun s us => sbind (import_loop cf s c known l2) (fun s us' => sret s (us ++ us')))).
  { induction l1 as [|w l1 IH]; intros l2 s0.
    - cbn [app import_loop]. unfold sret at 1. rewrite sbind_ok. destruct (import_loop cf s0 c known l2) as [[a b] [us|y|]]; cbn; rewrite ?app_nil_r; reflexivity.
    - cbn [app import_loop]. destruct (import_one cf s0 c known w) as [[a b] [u|y|]]; [|reflexivity..]. rewrite !sbind_ok, IH.
      destruct (import_loop cf a c known l1) as [[a1 b1] [us|y|]].
      + unfold sret. cbn [sbind]. unfold sst, snt, srs. destruct (import_loop cf a1 c known l2) as [[a2 b2] [us'|y|]] eqn:L2; cbn [fst snd sbind app];
          rewrite ?L2; cbn [fst snd sbind app]; rewrite ?app_nil_r, ?app_assoc; reflexivity.
      + unfold sst, snt, srs. cbn [fst snd sbind]. reflexivity.
      + unfold sst, snt, srs. cbn [fst snd sbind]. reflexivity. }
  assert (OKB : srs (step cf s (OImport c (Ok (Some before)) p cr false)) = Ok tt).
  { pose proof (C147_raises cf s c (Ok (Some before)) p cr false) as RA. assert (NR : forall y, srs (step cf s (OImport c (Ok (Some before)) p cr false)) <> Raise y).
    { intros y Y. apply RA in Y; [|exact R|intros vs V; injection V as <-; exact ND1]. destruct Y as [Y|[_ [Y|(b & w & a & EQ & B & _)]]]; [congruence|discriminate|].
      injection EQ as ->. apply (G w y); [apply in_app_iff; right; now left|exact B]. }
    revert NR. cbn [step]. unfold import_cal. rewrite sbind_slift, E, sbind_slift. fold known.
    pose proof (loop_decides cf c known before s I KN ND1) as D. destruct (import_loop cf s c known before) as [[a b] r]. unfold srs in D. cbn [snd] in D.
    destruct D as [(us & -> & _)|(y & -> & _)]; [reflexivity|]. intros NR. destruct (NR y). reflexivity. }
  revert ST OKB. cbn [step]. unfold import_cal. rewrite !sbind_slift, E, !sbind_slift. fold known. rewrite CAT.
  pose proof (import_loop_frame1 cf c known before s) as F. pose proof (import_loop_tracks cf c known before s I) as (I1 & _).
  assert (VIS : forall u, visible s c p cr u <-> In u known).
  { intros u. unfold known. rewrite known_in. split; [intros (evs' & e & E' & He & U); assert (evs' = evs) by congruence; subst; eauto|].
    intros (e & He & U). exists evs, e. auto. }
  destruct (import_loop cf s c known before) as [[s1 n1] [us|y|]] eqn:LB; [|discriminate..]. unfold sst in F, I1. cbn [fst] in F, I1.
  assert (KN1 : forall k, In k known -> has_event s1 k = true) by (intros k K; eapply frame_has; [exact F|now apply KN]).
  assert (NU : forall u, v_uid v = Some u -> ~ In u (import_uids before)) by (intros u V X; apply NV; rewrite V; now apply in_map).
  assert (BI : bad_in cf s1 c known v x).
  { apply (bad_in_moves cf s s1 c known (import_uids before) v x I F NU). destruct BV as [X|(u & V & X)]; [now left|]. right. exists u. split; [exact V|].
    destruct X as [(r & VI & GE & B)|(H & B)]; [left; exists r; split; [now apply VIS|]; split; [|exact B]|right; split; [|split; [exact H|exact B]]].
    - unfold get_event in GE. destruct (dget (sys_store s) u); [congruence|discriminate].
    - intros K. rewrite (KN u K) in H. discriminate. }
  pose proof (proj2 (decides_iff _ _ x (one_decides cf s1 c known v KN1)) BI) as FAIL.
  destruct (one_stops cf s1 c known v x KN1 FAIL) as (O1 & O2 & O3 & O4 & _ & O6).
  intros ST _. exists s1. rewrite sbind_ok in ST. cbn [import_loop] in ST.
  destruct (import_one cf s1 c known v) as [[s2 n2] r2] eqn:ONE. unfold srs, snt, sst in FAIL, O1, O2, O3, O4, O6. cbn [fst snd] in FAIL, O1, O2, O3, O4, O6.
  subst r2 n2. unfold sst, snt, srs in ST. cbn in ST. rewrite !app_nil_r in ST. injection ST as <- <-.
  split; [rewrite sbind_ok; unfold sst, snt, srs, sret; cbn [fst snd]; now rewrite app_nil_r|]. do 3 (split; [assumption|]). split; [|split].
  - intros r H. apply O6. intros u V K D. apply (H u V); [now apply VIS|]. destruct (frame_other _ _ s s1 u I F (NU u V) (NU u V)) as [D1 _].
    unfold get_event. now rewrite <- D1, D.
  - intros u H. rewrite has_event_dget, O2, <- has_event_dget. eapply frame_has; [exact F|exact H].
  - intros u U. rewrite O2. now destruct (frame_other _ _ s s1 u I F U U).
Qed.
Print Assumptions C147_left.

(** seven faults: a role that is none, an unknown attendee, a monthly rule without
    a day, an unknown frequency, a time beyond the calendar, no start, no id *)
Example C147_case :
  let s := run cf0 office in
  let new u t att rr := mkV (Some u) t None (Some HOUR) (Some "New"%string) None None None None att [] None None None rr in
  let at9 := Some (IFloat (p_at 732500 9)) in
  let good := new "n1"%string at9 [] None in
  let raised vs := srs (step cf0 s (OImport 0 (Ok (Some vs)) (None, None) None true)) in
  let b1 := new "n2"%string at9 [("bob", None, Some "GUEST"); ("zoe", None, None)]%string None in
  let b2 := new "n3"%string at9 [("bob", None, None); ("zoe", None, None)]%string None in
  let b3 := new "n4"%string at9 [] (Some (mkRR (Some ["MONTHLY"]) None None None (Some []))%string) in
  let b4 := new "n5"%string at9 [] (Some (mkRR (Some ["HOURLY"]) None None None None)%string) in
  let b5 := new "n6"%string (Some (IAware DAY HOUR)) [] None in
  let b6 := new "n7"%string None [("zoe", None, None)]%string None in
  let b7 := mkV None at9 None (Some HOUR) (Some "New"%string) None None None None [] [] None None None None in
  raised [good; b1; b2] = Raise AssertionError /\ raised [good; b2; b1] = Raise AttributeError
  /\ raised [good; b3; b1] = Raise IndexError /\ raised [b4; b3] = Raise UnboundLocalError /\ raised [good; b5; b4] = Raise OverflowError
  /\ raised [good; b6; b5] = Raise AssertionError /\ raised [good; b7; b6] = Raise KeyError
  /\ reachable cf0 s /\ NoDup (import_uids [good; b2; b1]) /\ bad_component cf0 s 0 (None, None) None b2 AttributeError
  /\ (exists s', step cf0 s (OImport 0 (Ok (Some [good; b2; b1])) (None, None) None true) = (s', [NCreated "n1"%string], Raise AttributeError)
      /\ has_event s' "n1" = true /\ has_event s' "n3" = false /\ has_event s' "a1" = true).
Proof.
  cbv zeta. do 7 (split; [vm_compute; reflexivity|]). split; [apply run_reachable|]. split.
  { cbn. constructor; [intros [X|[X|[]]]; discriminate|]. constructor; [intros [X|[]]; discriminate|]. constructor; [intros []|constructor]. }
  split.
  - destruct (C147_raises cf0 (run cf0 office) 0 (Ok (Some [mkV (Some "n3"%string) (Some (IFloat (p_at 732500 9))) None (Some HOUR) (Some "New"%string)
      None None None None [("bob", None, None); ("zoe", None, None)]%string [] None None None None])) (None, None) None true AttributeError
      (run_reachable cf0 office)) as [H _].
    { intros vs V. injection V as <-. cbn. constructor; [intros []|constructor]. }
    destruct H as [H|[_ [H|(b & v & a & EQ & B & _)]]]; [vm_compute; reflexivity|vm_compute in H; discriminate H|discriminate|].
    injection EQ as EQ. destruct b as [|w b]; [|destruct b; discriminate EQ]. injection EQ as <- _. exact B.
  - eexists. split; [vm_compute; reflexivity|]. vm_compute. auto.
Qed.
