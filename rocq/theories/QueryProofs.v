(** Exactness of the event and occurrence queries. *)
From Verif Require Import Base PyDate DateFacts Recurrent SpecRecur RecurProofs RecurOrder RecurSound RecurMisc
  CalTime TimeProofs Event Storage.
From Coq Require Import ZifyBool Sorting.Sorted Sorting.Permutation.
Ltac Zify.zify_post_hook ::= Z.div_mod_to_equations.
Local Opaque ord2ymd year_of month_of day_of ymd2ord days_in_month is_leap.

(** ** what the criteria mean *)
Definition attends (e : event) (i : string) (st : string) : Prop := dget (e_state e) i = Some st.

Definition satisfies (c : criteria) (e : event) : Prop :=
  (forall cats, c_categories c = Some cats -> exists x, In x cats /\ In x (e_categories e))
  /\ (forall o, c_organizer c = Some o -> exists i, o = Some i /\ e_organizer e = Some i)
  /\ (forall l, c_attendees c = Some l -> exists i st, In (Some i) l /\ attends e i st
        /\ (forall s, c_status c = Some s -> st = s)
        /\ (forall r, c_role c = Some r -> dget (e_role e) i = Some r)).

(** criteria built from real attendees *)
Definition crit_ok (c : criteria) : Prop :=
  c_organizer c <> Some None /\ (forall l, c_attendees c = Some l -> ~ In None l).

Lemma opt_str_eqb_eq a b : opt_str_eqb a b = true <-> a = b.
Proof.
  destruct a as [a|], b as [b|]; cbn; split; intros H; try discriminate; try reflexivity.
  - apply String.eqb_eq in H. now subst.
  - injection H as <-. apply String.eqb_refl.
Qed.

Lemma str_in_iff s l : str_in s l = true <-> In s l.
Proof.
  unfold str_in. rewrite existsb_exists. split.
  - intros (x & H & E). apply String.eqb_eq in E. now subst.
  - intros H. exists s. split; [exact H|apply String.eqb_refl].
Qed.

Definition att_match (c : criteria) (e : event) (i : string) : Prop :=
  exists st, attends e i st /\ (forall s, c_status c = Some s -> st = s)
    /\ (forall r, c_role c = Some r -> dget (e_role e) i = Some r).

Lemma match_attendees_spec c e l : forall b, match_attendees c e l = Ok b ->
  (b = true <-> exists i, In (Some i) l /\ att_match c e i).
Proof.
  induction l as [|a l IH]; intros b E; cbn [match_attendees] in E.
  { injection E as <-. split; [discriminate|]. intros (i & [] & _). }
  destruct a as [i|]; [|discriminate].
  unfold has_attendee, get_status, get_role in E. cbn [attendee_id rbind] in E.
  destruct (dget (e_state e) i) as [st|] eqn:S.
  - cbn [negb] in E.
    destruct (match c_status c with Some s => negb (opt_str_eqb (Some s) (Some st)) | None => false end) eqn:CS.
    + rewrite (IH b E). destruct (c_status c) as [s|] eqn:Hs; [|discriminate].
      assert (s <> st) by (intros ->; rewrite (proj2 (opt_str_eqb_eq _ _) eq_refl) in CS; discriminate).
      split; intros (j & J1 & J2); exists j; [split; [now right|exact J2]|].
      destruct J1 as [J1|J1]; [|auto]. injection J1 as <-. destruct J2 as (st' & A1 & A2 & _).
      unfold attends in A1. rewrite S in A1. injection A1 as <-. specialize (A2 s Hs). congruence.
    + assert (CS' : forall s, c_status c = Some s -> st = s).
      { intros s Hs. rewrite Hs in CS. apply negb_false_iff in CS. apply opt_str_eqb_eq in CS. congruence. }
      destruct (match c_role c with Some s => negb (opt_str_eqb (Some s) (dget (e_role e) i)) | None => false end) eqn:CR.
      * rewrite (IH b E). destruct (c_role c) as [s|] eqn:Hs; [|discriminate].
        assert (Some s <> dget (e_role e) i).
        { intros X. rewrite X, (proj2 (opt_str_eqb_eq _ _) eq_refl) in CR. discriminate. }
        split; intros (j & J1 & J2); exists j; [split; [now right|exact J2]|].
        destruct J1 as [J1|J1]; [|auto]. injection J1 as <-. destruct J2 as (st' & _ & _ & A3).
        specialize (A3 s Hs). congruence.
      * injection E as <-. split; [intros _|auto]. exists i. split; [now left|]. exists st.
        split; [exact S|]. split; [exact CS'|]. intros r Hr. rewrite Hr in CR.
        apply negb_false_iff in CR. apply opt_str_eqb_eq in CR. auto.
  - cbn [negb] in E. rewrite (IH b E).
    split; intros (j & J1 & J2); exists j; [split; [now right|exact J2]|].
    destruct J1 as [J1|J1]; [|auto]. injection J1 as <-. destruct J2 as (st' & A1 & _).
    unfold attends in A1. congruence.
Qed.

Lemma match_attendees_total c e l : ~ In None l -> exists b, match_attendees c e l = Ok b.
Proof.
  induction l as [|a l IH]; intros N; [now exists false|].
  destruct IH as [b B]; [intros H; apply N; now right|].
  destruct a as [i|]; [|exfalso; apply N; now left]. cbn [match_attendees].
  unfold has_attendee, get_status, get_role. cbn [attendee_id rbind]. rewrite B.
  destruct (dget (e_state e) i); cbn [negb]; [|eauto].
  repeat match goal with |- context [if ?b then _ else _] => destruct b end; eauto.
Qed.

Lemma match_spec c e b : match_criteria c e = Ok b -> (b = true <-> satisfies c e).
Proof.
  unfold match_criteria, satisfies. intros E.
  destruct (match c_categories c with Some cats => negb (existsb (in_category e) cats) | None => false end) eqn:CC.
  { injection E as <-. split; [discriminate|]. intros (H & _). exfalso.
    destruct (c_categories c) as [cats|]; [|discriminate]. destruct (H cats eq_refl) as (x & X1 & X2).
    apply negb_true_iff in CC. rewrite <- not_true_iff_false in CC. apply CC, existsb_exists.
    exists x. split; [exact X1|]. now apply str_in_iff. }
  assert (C1 : forall cats, c_categories c = Some cats -> exists x, In x cats /\ In x (e_categories e)).
  { intros cats Hc. rewrite Hc in CC. apply negb_false_iff in CC. apply existsb_exists in CC as (x & X1 & X2).
    exists x. split; [exact X1|]. now apply str_in_iff. }
  destruct (c_organizer c) as [[o|]|]; cbn [attendee_id rbind] in E; [|discriminate|].
  - unfold get_organizer_id in E. destruct (negb (opt_str_eqb (e_organizer e) (Some o))) eqn:CO.
    { injection E as <-. split; [discriminate|]. intros (_ & H & _). exfalso.
      destruct (H _ eq_refl) as (i & I1 & I2). injection I1 as <-.
      rewrite I2, (proj2 (opt_str_eqb_eq _ _) eq_refl) in CO. discriminate. }
    apply negb_false_iff in CO. apply opt_str_eqb_eq in CO.
    assert (C2 : forall o', Some (Some o) = Some o' -> exists i, o' = Some i /\ e_organizer e = Some i)
      by (intros o' H; injection H as <-; eauto).
    destruct (c_attendees c) as [l|].
    + rewrite (match_attendees_spec _ _ _ _ E). split.
      * intros (i & I1 & st & I2). split; [exact C1|]. split; [exact C2|]. intros l' H. injection H as <-. eauto.
      * intros (_ & _ & H). destruct (H l eq_refl) as (i & st & I1 & I2). exists i. split; [exact I1|]. now exists st.
    + injection E as <-. split; [intros _|auto]. split; [exact C1|]. split; [exact C2|]. discriminate.
  - assert (C2 : forall o' : attendee, None = Some o' -> exists i, o' = Some i /\ e_organizer e = Some i) by discriminate.
    destruct (c_attendees c) as [l|].
    + rewrite (match_attendees_spec _ _ _ _ E). split.
      * intros (i & I1 & st & I2). split; [exact C1|]. split; [exact C2|]. intros l' H. injection H as <-. eauto.
      * intros (_ & _ & H). destruct (H l eq_refl) as (i & st & I1 & I2). exists i. split; [exact I1|]. now exists st.
    + injection E as <-. split; [intros _|auto]. split; [exact C1|]. split; [exact C2|]. discriminate.
Qed.

Lemma match_total c e : crit_ok c -> exists b, match_criteria c e = Ok b.
Proof.
  intros [H1 H2]. unfold match_criteria.
  destruct (match c_categories c with Some cats => negb (existsb (in_category e) cats) | None => false end); [eauto|].
  destruct (c_organizer c) as [[o|]|] eqn:CO; [|exfalso; now apply H1|]; cbn [attendee_id rbind].
  - destruct (negb _); [eauto|]. destruct (c_attendees c) as [l|]; [|eauto]. apply match_attendees_total. auto.
  - destruct (c_attendees c) as [l|]; [|eauto]. apply match_attendees_total. auto.
Qed.

Definition the_criteria (c : option criteria) : criteria :=
  match c with Some c => c | None => null_criteria end.

Lemma satisfies_null e : satisfies null_criteria e.
Proof. split; [discriminate|]. split; discriminate. Qed.

Lemma crit_ok_null : crit_ok null_criteria.
Proof. split; discriminate. Qed.

Lemma matching_in evs c l : matching_events evs c = Ok l ->
  forall e, In e l <-> In e evs /\ satisfies (the_criteria c) e.
Proof.
  intros E e. unfold matching_events in E. fold (the_criteria c) in E.
  rewrite (rfilter_in _ _ _ E e). split; intros [H1 H2]; (split; [exact H1|]).
  - now apply (match_spec _ _ _ H2).
  - destruct (match_criteria (the_criteria c) e) as [b|x|] eqn:M.
    + apply (match_spec _ _ _ M) in H2. now subst.
    + exfalso. clear -E M H1. revert l E H1. induction evs as [|a evs IH]; intros l E H1; [destruct H1|].
      cbn [rfilter] in E. destruct (match_criteria (the_criteria c) a) eqn:A; try discriminate. cbn [rbind] in E.
      destruct (rfilter _ evs) eqn:R; try discriminate.
      destruct H1 as [->|H1]; [congruence|]. eapply IH; eauto.
    + exfalso. clear -E M H1. revert l E H1. induction evs as [|a evs IH]; intros l E H1; [destruct H1|].
      cbn [rfilter] in E. destruct (match_criteria (the_criteria c) a) eqn:A; try discriminate. cbn [rbind] in E.
      destruct (rfilter _ evs) eqn:R; try discriminate.
      destruct H1 as [->|H1]; [congruence|]. eapply IH; eauto.
Qed.

Lemma matching_total evs c : crit_ok (the_criteria c) -> exists l, matching_events evs c = Ok l.
Proof.
  intros H. unfold matching_events. fold (the_criteria c). apply rfilter_ok. intros e _. now apply match_total.
Qed.

Lemma rfilter_sub {A} (f : A -> res bool) l out : rfilter f l = Ok out -> NoDup l -> NoDup out.
Proof. intros E N. apply rfilter_is_filter in E. subst. now apply NoDup_filter. Qed.

Lemma rfilter_all {A} (f : A -> res bool) l out : rfilter f l = Ok out -> forall x, In x l -> exists b, f x = Ok b.
Proof.
  revert out. induction l as [|a l IH]; intros out E x H; [destruct H|]. cbn [rfilter] in E.
  destruct (f a) as [b| |] eqn:A1; try discriminate. cbn [rbind] in E.
  destruct (rfilter f l) as [r| |] eqn:R; try discriminate. destruct H as [->|H]; [eauto|]. eapply IH; eauto.
Qed.

Lemma rfilter_perm {A} (f : A -> res bool) l1 l2 o1 : Permutation l1 l2 -> rfilter f l1 = Ok o1 ->
  exists o2, rfilter f l2 = Ok o2 /\ Permutation o1 o2.
Proof.
  intros P E.
  destruct (rfilter_ok f l2) as [o2 E2].
  { intros x H. apply (rfilter_all f l1 o1 E). eapply Permutation_in; [symmetry; exact P|exact H]. }
  exists o2. split; [exact E2|]. apply rfilter_is_filter in E, E2. subst.
  clear -P. induction P as [|x l l' P IH|x y l|l l' l'' P1 IH1 P2 IH2]; cbn [filter].
  - constructor.
  - destruct (match f x with Ok b => b | _ => false end); [now constructor|exact IH].
  - destruct (match f x with Ok b => b | _ => false end), (match f y with Ok b => b | _ => false end);
      try apply perm_swap; reflexivity.
  - now transitivity (filter (fun x => match f x with Ok b => b | _ => false end) l').
Qed.

(** ** overlap with a period *)
(** the interval [s, s+d) and the period have the order of overlapping intervals *)
Definition touches (s d : Z) (p : period) : Prop :=
  (forall b, fst p = Some b -> b < s + d) /\ (forall e, snd p = Some e -> s < e).

Lemma in_period_iff s d p b : in_period s (Some d) p = Ok b -> (b = true <-> touches s d p).
Proof.
  destruct p as [[x|] [y|]]; unfold in_period, end_of, dt_add, touches; cbn [fst snd].
  - destruct (dt_ok (s + d)); [|discriminate]. cbn [rbind]. destruct (s + d <=? x) eqn:E; intros X; injection X as <-.
    + split; [discriminate|]. intros [H _]. specialize (H x eq_refl). lia.
    + split; [intros H; split; intros ? Q; injection Q as <-; lia|].
      intros [_ H]. specialize (H y eq_refl). lia.
  - destruct (dt_ok (s + d)); [|discriminate]. cbn [rbind]. destruct (s + d <=? x) eqn:E; intros X; injection X as <-.
    + split; [discriminate|]. intros [H _]. specialize (H x eq_refl). lia.
    + split; [intros H; split; intros ? Q; [injection Q as <-; lia|discriminate]|reflexivity].
  - intros X; injection X as <-. split.
    + intros H; split; intros ? Q; [discriminate|injection Q as <-; lia].
    + intros [_ H]. specialize (H y eq_refl). lia.
  - intros X; injection X as <-. split; [intros _; split; discriminate|reflexivity].
Qed.

Lemma touches_instant s d p : 0 < d -> period_nonempty p ->
  (touches s d p <-> exists t, s <= t < s + d /\ after_begin p t /\ before_end p t).
Proof.
  intros Hd N. unfold touches, after_begin, before_end. destruct p as [[b|] [e|]]; cbn [fst snd] in *; cbn in N.
  - split; [intros [H1 H2]; specialize (H1 b eq_refl); specialize (H2 e eq_refl); exists (Z.max s b); lia|].
    intros (t & T). split; intros ? Q; injection Q as <-; lia.
  - split; [intros [H1 _]; specialize (H1 b eq_refl); exists (Z.max s b); lia|].
    intros (t & T). split; intros ? Q; [injection Q as <-; lia|discriminate].
  - split; [intros [_ H2]; specialize (H2 e eq_refl); exists s; lia|].
    intros (t & T). split; intros ? Q; [discriminate|injection Q as <-; lia].
  - split; [intros _; exists s; lia|]. intros _. split; discriminate.
Qed.

(** ** getEvents *)
Lemma get_events_in evs p c l : get_events evs p c = Ok l ->
  forall e d, e_duration e = Some d ->
  (In e l <-> In e evs /\ satisfies (the_criteria c) e /\ touches (e_dtstart e) d p).
Proof.
  intros E e d D. unfold get_events in E. destruct (matching_events evs c) as [m| |] eqn:M; try discriminate.
  cbn [rbind] in E. rewrite (rfilter_in _ _ _ E), (matching_in _ _ _ M), D.
  split.
  - intros [[H1 H2] H3]. pose proof (in_period_iff _ _ _ _ H3). tauto.
  - intros (H1 & H2 & H3). split; [auto|].
    destruct (rfilter_all _ _ _ E e) as [b B]; [apply (matching_in _ _ _ M); auto|]. rewrite D in B. rewrite B.
    f_equal. now apply (in_period_iff _ _ _ _ B).
Qed.

Lemma get_events_sub evs p c l : get_events evs p c = Ok l -> forall e, In e l -> In e evs.
Proof.
  intros E e H. unfold get_events in E. destruct (matching_events evs c) as [m| |] eqn:M; try discriminate.
  cbn [rbind] in E. apply (rfilter_in _ _ _ E) in H as [H _]. now apply (matching_in _ _ _ M) in H.
Qed.

Lemma get_events_nodup evs p c l : get_events evs p c = Ok l -> NoDup evs -> NoDup l.
Proof.
  intros E N. unfold get_events in E. destruct (matching_events evs c) as [m| |] eqn:M; try discriminate.
  cbn [rbind] in E. eapply rfilter_sub; [exact E|]. eapply rfilter_sub; [exact M|exact N].
Qed.

Lemma get_events_perm evs1 evs2 p c l1 : Permutation evs1 evs2 -> get_events evs1 p c = Ok l1 ->
  exists l2, get_events evs2 p c = Ok l2 /\ Permutation l1 l2.
Proof.
  intros P E. unfold get_events in *. destruct (matching_events evs1 c) as [m| |] eqn:M; try discriminate.
  cbn [rbind] in E. destruct (rfilter_perm _ _ _ _ P M) as (m2 & M2 & PM). unfold matching_events in *. rewrite M2. cbn [rbind].
  eapply rfilter_perm; eauto.
Qed.

Definition event_ok (e : event) : Prop :=
  dt_ok (e_dtstart e) = true /\ exists d, e_duration e = Some d /\ 0 <= d /\ dt_ok (e_dtstart e + d) = true.

Lemma get_events_total evs p c : crit_ok (the_criteria c) -> (forall e, In e evs -> event_ok e) ->
  exists l, get_events evs p c = Ok l.
Proof.
  intros C H. unfold get_events. destruct (matching_total evs c C) as [m M]. rewrite M. cbn [rbind].
  apply rfilter_ok. intros e He. apply (matching_in _ _ _ M) in He as [He _].
  destruct (H e He) as (_ & d & D & _ & D2). rewrite D. now apply in_period_total.
Qed.

(** with no bounds even the duration does not matter *)
Lemma get_events_unbounded evs c l : get_events evs (None, None) c = Ok l ->
  forall e, In e l <-> In e evs /\ satisfies (the_criteria c) e.
Proof.
  intros E e. unfold get_events in E. destruct (matching_events evs c) as [m| |] eqn:M; try discriminate.
  cbn [rbind] in E. rewrite (rfilter_in _ _ _ E), (matching_in _ _ _ M). cbn. tauto.
Qed.

(** ** occurrences *)
(** the days a rule stands for, for an event starting on day [s] *)
Definition rule_selects (r : rule) (s d : Z) : Prop :=
  match r_kind r with
  | KNo => d = s
  | _ => s <= d /\ selected (code_on r) r s d = true
  end.

(** an occurrence of the event starts at [t] *)
Definition occurs (e : event) (t : Z) : Prop :=
  match e_recurrence e with
  | None => t = e_dtstart e
  | Some r => dt_time t = dt_time (e_dtstart e) /\ rule_selects r (dt_date (e_dtstart e)) (dt_date t)
  end.

Definition event_rule_ok (e : event) : Prop :=
  match e_recurrence e with Some r => valid_rule r | None => True end.

Lemma expand_dates_in e p l out : expand_dates e p l = Ok out ->
  forall o, In o out <-> exists d, In d l /\ in_period (combine d (dt_time (e_dtstart e))) (e_duration e) p = Ok true
    /\ o = mkOcc (combine d (dt_time (e_dtstart e))) (e_duration e) e.
Proof.
  intros E o. unfold expand_dates in E. rewrite (rconcat_in _ _ _ E). split.
  - intros (d & ys & H1 & H2 & H3). exists d. split; [exact H1|].
    destruct (in_period _ _ _) as [b| |]; try discriminate. cbn [rbind] in H2. injection H2 as <-.
    destruct b; [|destruct H3]. destruct H3 as [<-|[]]. auto.
  - intros (d & H1 & H2 & ->). exists d. exists [mkOcc (combine d (dt_time (e_dtstart e))) (e_duration e) e].
    split; [exact H1|]. rewrite H2. cbn. auto.
Qed.

Lemma combine_date d t : 0 <= t < DAY -> dt_date (combine d t) = d /\ dt_time (combine d t) = t.
Proof. unfold combine, dt_date, dt_time, DAY. lia. Qed.

Lemma combine_split t : combine (dt_date t) (dt_time t) = t.
Proof. unfold combine, dt_date, dt_time, DAY. lia. Qed.

Lemma dt_time_range t : 0 <= dt_time t < DAY.
Proof. unfold dt_time, DAY. lia. Qed.

Lemma in_period_before t d p pe : in_period t d p = Ok true -> snd p = Some pe -> t < pe.
Proof.
  destruct p as [b e]. cbn [snd]. intros H ->. unfold in_period in H.
  destruct b as [b|].
  - destruct (end_of t d) as [y| |]; try discriminate. cbn [rbind] in H.
    destruct (y <=? b); [discriminate|]. injection H as H. lia.
  - injection H as H. lia.
Qed.

Lemma dt_ok_date t : dt_ok t = true <-> 1 <= dt_date t <= MAXORD.
Proof. unfold dt_ok, dt_date, DAY, MAXORD. lia. Qed.

Lemma apply_selects F r dt pe l : valid_rule r -> 1 <= dt_date dt ->
  apply F r dt (Some (VDate pe)) = (l, GStop) ->
  forall d, d <= pe -> (In d l <-> rule_selects r (dt_date dt) d).
Proof.
  intros V Hs E d Hd. unfold rule_selects. destruct (kind_eqb (r_kind r) KNo) eqn:K.
  - apply kind_eqb_eq in K. rewrite K. unfold apply in E. rewrite K in E. injection E as <-. cbn. 
    split; [intros [H|[]]; congruence|intros ->; now left].
  - assert (K' : r_kind r <> KNo) by (intros X; rewrite X in K; discriminate).
    rewrite (apply_sound F r dt pe l K' V Hs E). unfold expected. rewrite filter_In, in_days.
    destruct (r_kind r); try (contradict K'; reflexivity); intuition lia.
Qed.

Lemma expand_in F e p out : dt_ok (e_dtstart e) = true -> event_rule_ok e ->
  expand F e p = Ok out ->
  forall o, In o out <-> exists t, o = mkOcc t (e_duration e) e /\ occurs e t
                           /\ in_period t (e_duration e) p = Ok true.
Proof.
  intros OS RV E o. unfold expand in E. unfold occurs, event_rule_ok in *.
  destruct (e_recurrence e) as [r|].
  - destruct (snd p) as [pe|] eqn:PE; [|discriminate].
    destruct (apply F r (e_dtstart e) (Some (VDate (dt_date pe)))) as [l f] eqn:A.
    destruct (expand_dates e p l) as [out'| |] eqn:X; try discriminate. cbn [rbind] in E.
    destruct f; try discriminate. injection E as <-.
    apply dt_ok_date in OS.
    rewrite (expand_dates_in _ _ _ _ X). split.
    + intros (d & H1 & H2 & ->). exists (combine d (dt_time (e_dtstart e))). split; [reflexivity|].
      destruct (combine_date d (dt_time (e_dtstart e)) (dt_time_range _)) as [C1 C2].
      split; [|exact H2]. split; [exact C2|]. rewrite C1.
      apply (apply_selects F r (e_dtstart e) (dt_date pe) l RV ltac:(lia) A); [|exact H1].
      pose proof (in_period_before _ _ _ _ H2 PE). unfold combine, dt_date, dt_time, DAY in *. lia.
    + intros (t & -> & [T1 T2] & H). exists (dt_date t).
      assert (EQ : combine (dt_date t) (dt_time (e_dtstart e)) = t) by (rewrite <- T1; apply combine_split).
      rewrite EQ. split; [|auto].
      apply (apply_selects F r (e_dtstart e) (dt_date pe) l RV ltac:(lia) A); [|exact T2].
      pose proof (in_period_before _ _ _ _ H PE). unfold dt_date, DAY in *. lia.
  - destruct (in_period _ _ _) as [b| |] eqn:B; try discriminate. cbn [rbind] in E. injection E as <-.
    split.
    + destruct b; [|intros []]. intros [<-|[]]. exists (e_dtstart e). auto.
    + intros (t & -> & -> & H). rewrite H in B. injection B as <-. now left.
Qed.

(** per event, occurrences come in order, each once *)
Lemma expand_sorted F e p out : dt_ok (e_dtstart e) = true -> event_rule_ok e ->
  expand F e p = Ok out -> StronglySorted Z.lt (map o_dtstart out).
Proof.
  intros OS RV E. unfold expand in E. unfold event_rule_ok in *. apply dt_ok_date in OS.
  destruct (e_recurrence e) as [r|].
  - destruct (snd p) as [pe|] eqn:PE; [|discriminate].
    destruct (apply F r (e_dtstart e) (Some (VDate (dt_date pe)))) as [l f] eqn:A.
    destruct (expand_dates e p l) as [out'| |] eqn:X; try discriminate. cbn [rbind] in E.
    destruct f; try discriminate. injection E as <-.
    assert (S : StronglySorted Z.lt l).
    { pose proof (apply_sorted F r (e_dtstart e) (Some (VDate (dt_date pe)))) as Q. rewrite A in Q. cbn [fst] in Q.
      destruct (validate_inv r RV) as (Hi & _). apply Q; lia. }
    clear A. revert out' X. induction S as [|d l S IH F0]; intros out X; unfold expand_dates in X; cbn [rconcat_map] in X.
    + injection X as <-. constructor.
    + destruct (in_period (combine d (dt_time (e_dtstart e))) (e_duration e) p) as [b| |]; try discriminate.
      cbn [rbind] in X.
      change (rconcat_map _ l) with (expand_dates e p l) in X.
      destruct (expand_dates e p l) as [o2| |] eqn:X2; try discriminate. cbn [rbind] in X. injection X as <-.
      specialize (IH o2 eq_refl). destruct b; [|exact IH]. cbn [app map o_dtstart]. constructor; [exact IH|].
      apply Forall_forall. intros t Ht. apply in_map_iff in Ht as (o & <- & Ho).
      apply (expand_dates_in _ _ _ _ X2) in Ho as (d' & D1 & _ & ->). cbn [o_dtstart].
      rewrite Forall_forall in F0. specialize (F0 d' D1). pose proof (dt_time_range (e_dtstart e)).
      unfold combine, DAY in *. lia.
  - destruct (in_period _ _ _) as [b| |] eqn:B; try discriminate. cbn [rbind] in E. injection E as <-.
    destruct b; repeat constructor.
Qed.

Definition evs_ok (evs : list event) : Prop :=
  forall e, In e evs -> event_ok e /\ event_rule_ok e.

(** every occurrence that may be asked for has a representable end *)
Definition expand_room (e : event) (pe : Z) : Prop :=
  match e_recurrence e with
  | None => True
  | Some r => (r_kind r <> KNo -> until_is_date r /\ room r (dt_date (e_dtstart e)) (dt_date pe))
              /\ forall d, e_duration e = Some d -> pe + DAY + d < (MAXORD + 1) * DAY
  end.

Lemma expand_total e b pe : event_ok e -> event_rule_ok e -> 1 <= dt_date pe -> expand_room e pe ->
  exists N, forall F, (N <= F)%nat -> exists out, expand F e (b, Some pe) = Ok out.
Proof.
  intros (OS & d & D & D0 & D1) RV HP RM. unfold expand, event_rule_ok, expand_room in *.
  destruct (e_recurrence e) as [r|].
  - destruct RM as [R1 R2]. cbn [snd].
    assert (A : exists N, forall F, (N <= F)%nat -> exists l,
       apply F r (e_dtstart e) (Some (VDate (dt_date pe))) = (l, GStop)
       /\ forall x, In x l -> dt_date (e_dtstart e) <= x <= Z.max (dt_date (e_dtstart e)) (dt_date pe)).
    { destruct (kind_eqb (r_kind r) KNo) eqn:K.
      - apply kind_eqb_eq in K. exists O. intros F _. unfold apply. rewrite K. eexists. split; [reflexivity|].
        intros x [<-|[]]. lia.
      - assert (K' : r_kind r <> KNo) by (intros X; rewrite X in K; discriminate).
        destruct (R1 K') as [U RO]. apply dt_ok_date in OS.
        destruct (apply_total r (e_dtstart e) (dt_date pe) K' RV U OS HP RO) as [N HN].
        exists N. intros F HF. exists (expected (code_on r) r (dt_date (e_dtstart e)) (dt_date pe)).
        split; [apply (HN F HF)|]. intros x Hx. apply filter_In in Hx as [Hx _]. apply in_days in Hx. lia. }
    destruct A as [N HN]. exists N. intros F HF. destruct (HN F HF) as (l & -> & HL).
    assert (X : exists out, expand_dates e (b, Some pe) l = Ok out).
    { unfold expand_dates. apply rconcat_ok. intros x Hx. specialize (HL x Hx). specialize (R2 d D).
      rewrite D. destruct (in_period_total (combine x (dt_time (e_dtstart e))) d (b, Some pe)) as [bb ->].
      - unfold dt_ok, combine, dt_date, dt_time, DAY, MAXORD in *. lia.
      - cbn [rbind]. eauto. }
    destruct X as [out ->]. cbn [rbind]. eauto.
  - exists O. intros F _. rewrite D. destruct (in_period_total (e_dtstart e) d (b, Some pe) D1) as [bb ->].
    cbn [rbind]. eauto.
Qed.

(** ** getOccurrences *)
Lemma get_occurrences_in F evs b pe c l : evs_ok evs ->
  get_occurrences F evs (Some b, Some pe) c = Ok l ->
  forall o, In o l <-> exists e t d, In e evs /\ satisfies (the_criteria c) e /\ e_duration e = Some d
     /\ o = mkOcc t (Some d) e /\ occurs e t /\ b < t + d /\ t < pe.
Proof.
  intros OK E o. unfold get_occurrences in E. cbn [assert_bounded rbind] in E.
  destruct (matching_events evs c) as [m| |] eqn:M; try discriminate. cbn [rbind] in E.
  rewrite (rconcat_in _ _ _ E). split.
  - intros (e & ys & H1 & H2 & H3). apply (matching_in _ _ _ M) in H1 as [H1 H1'].
    destruct (OK e H1) as [(O1 & d & D & D0 & D1) O2].
    apply (expand_in _ _ _ _ O1 O2 H2) in H3 as (t & -> & T1 & T2). rewrite D in *.
    apply in_period_ok_true in T2 as (d' & X & _ & T3 & T4). injection X as <-.
    exists e, t, d. auto 10.
  - intros (e & t & d & H1 & H2 & D & -> & T1 & T3 & T4).
    destruct (rconcat_all _ _ _ E e) as [ys Y]; [apply (matching_in _ _ _ M); auto|].
    exists e, ys. split; [apply (matching_in _ _ _ M); auto|]. split; [exact Y|].
    destruct (OK e H1) as [(O1 & d' & D' & D0 & D1) O2]. rewrite D in D'. injection D' as <-.
    apply (expand_in _ _ _ _ O1 O2 Y). exists t. rewrite D. split; [reflexivity|]. split; [exact T1|].
    assert (TB : exists bb, in_period t (Some d) (Some b, Some pe) = Ok bb).
    { clear -Y T1 T4 D O1 O2. unfold expand in Y. unfold occurs, event_rule_ok in *. rewrite D in *.
      destruct (e_recurrence e) as [r|].
      - cbn [snd] in Y. destruct (apply F r (e_dtstart e) (Some (VDate (dt_date pe)))) as [l f] eqn:A.
        destruct (expand_dates e (Some b, Some pe) l) as [out'| |] eqn:X; try discriminate. cbn [rbind] in Y.
        destruct f; try discriminate. destruct T1 as [T1 T2]. apply dt_ok_date in O1.
        assert (IN : In (dt_date t) l).
        { apply (apply_selects F r (e_dtstart e) (dt_date pe) l O2 ltac:(lia) A); [|exact T2].
          unfold dt_date, DAY in *. lia. }
        destruct (rconcat_all _ _ _ X _ IN) as [ys' Y']. cbv beta zeta in Y'.
        replace (combine (dt_date t) (dt_time (e_dtstart e))) with t in Y' by (rewrite <- T1; symmetry; apply combine_split).
        rewrite D in Y'. destruct (in_period t (Some d) (Some b, Some pe)); try discriminate. eauto.
      - subst t. destruct (in_period (e_dtstart e) (Some d) (Some b, Some pe)); try discriminate. eauto. }
    destruct TB as [bb TB]. rewrite TB. f_equal. apply (in_period_iff _ _ _ _ TB).
    split; intros ? Q; injection Q as <-; lia.
Qed.

Lemma rconcat_perm {A B} (f : A -> res (list B)) l1 l2 o1 : Permutation l1 l2 -> rconcat_map f l1 = Ok o1 ->
  exists o2, rconcat_map f l2 = Ok o2 /\ Permutation o1 o2.
Proof.
  intros P. revert o1. induction P as [|x l l' P IH|x y l|l l' l'' P1 IH1 P2 IH2]; intros o1 E; cbn [rconcat_map] in *.
  - injection E as <-. exists []. auto.
  - destruct (f x) as [yx| |]; try discriminate. cbn [rbind] in *.
    destruct (rconcat_map f l) as [r| |]; try discriminate. injection E as <-.
    destruct (IH r eq_refl) as (o2 & -> & Q). cbn [rbind]. eexists. split; [reflexivity|]. now apply Permutation_app_head.
  - destruct (f y) as [yy| |]; try discriminate. cbn [rbind] in *.
    destruct (f x) as [yx| |]; try discriminate. cbn [rbind] in *.
    destruct (rconcat_map f l) as [r| |]; try discriminate. cbn [rbind] in *. injection E as <-.
    eexists. split; [reflexivity|]. rewrite !app_assoc. apply Permutation_app_tail. apply Permutation_app_comm.
  - destruct (IH1 _ E) as (o2 & E2 & Q2). destruct (IH2 _ E2) as (o3 & E3 & Q3). exists o3. split; [exact E3|].
    now transitivity o2.
Qed.

Lemma get_occurrences_perm F evs1 evs2 p c l1 : Permutation evs1 evs2 -> get_occurrences F evs1 p c = Ok l1 ->
  exists l2, get_occurrences F evs2 p c = Ok l2 /\ Permutation l1 l2.
Proof.
  intros P E. unfold get_occurrences in *. destruct (assert_bounded p); try discriminate. cbn [rbind] in *.
  destruct (matching_events evs1 c) as [m| |] eqn:M; try discriminate.
  cbn [rbind] in E. destruct (rfilter_perm _ _ _ _ P M) as (m2 & M2 & PM). unfold matching_events in *. rewrite M2. cbn [rbind].
  eapply rconcat_perm; eauto.
Qed.

Lemma NoDup_app_intro {A} (l1 l2 : list A) : NoDup l1 -> NoDup l2 -> (forall x, In x l1 -> In x l2 -> False) ->
  NoDup (l1 ++ l2).
Proof.
  induction 1 as [|a l1 H N1 IH]; intros N2 D; [exact N2|]. cbn. constructor.
  - rewrite in_app_iff. intros [X|X]; [contradiction|]. apply (D a); [now left|exact X].
  - apply IH; [exact N2|]. intros x X1 X2. apply (D x); [now right|exact X2].
Qed.

Lemma NoDup_sorted_lt l : StronglySorted Z.lt l -> NoDup l.
Proof.
  induction 1 as [|a l S IH F]; constructor; [|exact IH]. intros H. rewrite Forall_forall in F.
  specialize (F a H). lia.
Qed.

Lemma get_occurrences_nodup F evs p c l : evs_ok evs -> NoDup evs ->
  get_occurrences F evs p c = Ok l -> NoDup l.
Proof.
  intros OK N E. unfold get_occurrences in E. destruct (assert_bounded p) as [bp| |]; try discriminate. cbn [rbind] in E.
  destruct (matching_events evs c) as [m| |] eqn:M; try discriminate. cbn [rbind] in E.
  assert (NM : NoDup m) by (eapply rfilter_sub; eauto).
  assert (OM : forall e, In e m -> event_ok e /\ event_rule_ok e).
  { intros e He. apply OK. now apply (matching_in _ _ _ M) in He. }
  clear M N OK evs. revert l E. induction NM as [|e m Hn NM IH]; intros l E; cbn [rconcat_map] in E.
  - injection E as <-. constructor.
  - destruct (expand F e p) as [oe| |] eqn:X; try discriminate. cbn [rbind] in E.
    destruct (rconcat_map _ m) as [r| |] eqn:R; try discriminate. injection E as <-.
    destruct (OM e (or_introl eq_refl)) as [(O1 & d & D & _) O2].
    assert (N1 : NoDup oe).
    { apply (NoDup_map_inv o_dtstart). apply NoDup_sorted_lt. eapply expand_sorted; eauto. }
    assert (N2 : NoDup r) by (apply IH; [intros; apply OM; now right|reflexivity]).
    clear IH. apply NoDup_app_intro; [exact N1|exact N2|].
    intros o H1 H2. apply (expand_in _ _ _ _ O1 O2 X) in H1 as (t & -> & _).
    apply (rconcat_in _ _ _ R) in H2 as (e' & ys & E1 & E2 & E3).
    destruct (OM e' (or_intror E1)) as [(O1' & _) O2'].
    apply (expand_in _ _ _ _ O1' O2' E2) in E3 as (t' & E3 & _). injection E3 as _ _ <-. contradiction.
Qed.

Lemma get_occurrences_total evs b pe c : evs_ok evs -> crit_ok (the_criteria c) -> 1 <= dt_date pe ->
  (forall e, In e evs -> expand_room e pe) ->
  exists N, forall F, (N <= F)%nat -> exists l, get_occurrences F evs (Some b, Some pe) c = Ok l.
Proof.
  intros OK C HP RM. unfold get_occurrences. cbn [assert_bounded rbind].
  destruct (matching_total evs c C) as [m M].
  assert (OM : forall e, In e m -> In e evs) by (intros e He; now apply (matching_in _ _ _ M) in He).
  assert (X : exists N, forall F, (N <= F)%nat -> exists l, rconcat_map (fun e => expand F e (Some b, Some pe)) m = Ok l).
  { clear M. induction m as [|e m IH]; [exists O; intros; now exists []|].
    destruct IH as [N1 H1]; [intros; apply OM; now right|].
    assert (He : In e evs) by (apply OM; now left).
    destruct (OK e He) as [O1 O2].
    destruct (expand_total e (Some b) pe O1 O2 HP (RM e He)) as [N2 H2].
    exists (Nat.max N1 N2). intros F HF. destruct (H1 F ltac:(lia)) as [l1 L1]. destruct (H2 F ltac:(lia)) as [l2 L2].
    cbn [rconcat_map]. rewrite L2. cbn [rbind]. rewrite L1. cbn [rbind]. eauto. }
  destruct X as [N HN]. exists N. intros F HF. rewrite M. cbn [rbind]. auto.
Qed.

(** ** segmented occurrences *)
Lemma occs_durations F evs b pe c l : evs_ok evs -> get_occurrences F evs (Some b, Some pe) c = Ok l -> durations_ok l.
Proof.
  intros OK E o Ho. apply (get_occurrences_in _ _ _ _ _ _ OK E) in Ho as (e & t & d & H1 & _ & D & -> & _).
  destruct (OK e H1) as [(_ & d' & D' & D0 & _) _]. exists d. split; [reflexivity|]. rewrite D in D'. injection D' as <-. exact D0.
Qed.

(** [t] is inside some occurrence of the event *)
Definition happens (e : event) (t : Z) : Prop :=
  exists t0 d, e_duration e = Some d /\ occurs e t0 /\ t0 <= t < t0 + d.

Lemma segmented_coverage F evs b pe c out : evs_ok evs -> dt_ok pe = true ->
  get_occurrences_segmented F evs (Some b, Some pe) c = Ok out ->
  forall e t, (exists o, In o out /\ o_original o = e /\ occ_covers o t) <->
    In e evs /\ satisfies (the_criteria c) e /\ b <= t < pe /\ happens e t.
Proof.
  intros OK OE E e t. unfold get_occurrences_segmented in E.
  destruct (get_occurrences F evs (Some b, Some pe) c) as [l| |] eqn:G; try discriminate. cbn [rbind assert_bounded] in E.
  rewrite (segments_coverage _ _ _ _ OE (occs_durations _ _ _ _ _ _ OK G) E). split.
  - intros (B & o & H1 & <- & (d & D & T)).
    apply (get_occurrences_in _ _ _ _ _ _ OK G) in H1 as (e & t0 & d' & H1 & H2 & D' & -> & T1 & _).
    cbn in *. injection D as ->. split; [exact H1|]. split; [exact H2|]. split; [exact B|].
    exists t0, d. auto.
  - intros (H1 & H2 & B & t0 & d & D & T1 & T2). split; [exact B|].
    exists (mkOcc t0 (Some d) e). split; [|split; [reflexivity|]].
    + apply (get_occurrences_in _ _ _ _ _ _ OK G). exists e, t0, d.
      split; [exact H1|]. split; [exact H2|]. split; [exact D|]. split; [reflexivity|]. split; [exact T1|]. lia.
    + exists d. cbn. split; [reflexivity|lia].
Qed.

Lemma segmented_within F evs b pe c out : evs_ok evs -> dt_ok pe = true ->
  get_occurrences_segmented F evs (Some b, Some pe) c = Ok out ->
  forall o, In o out -> exists d, o_duration o = Some d /\ 0 <= d /\ In (o_original o) evs
    /\ satisfies (the_criteria c) (o_original o)
    /\ b <= o_dtstart o /\ o_dtstart o + d <= pe
    /\ (exists D, D * DAY <= o_dtstart o /\ o_dtstart o + d <= (D + 1) * DAY).
Proof.
  intros OK OE E o Ho. unfold get_occurrences_segmented in E.
  destruct (get_occurrences F evs (Some b, Some pe) c) as [l| |] eqn:G; try discriminate. cbn [rbind assert_bounded] in E.
  destruct (segments_within _ _ _ _ OE (occs_durations _ _ _ _ _ _ OK G) E o Ho)
    as (occ & d & d' & H1 & H2 & H3 & H4 & H5 & H6 & H7 & _ & _ & H8).
  apply (get_occurrences_in _ _ _ _ _ _ OK G) in H1 as (e & t0 & d0 & K1 & K2 & _ & -> & _). cbn in H2.
  exists d'. rewrite H2. auto 10.
Qed.

Lemma segmented_total evs b pe c : evs_ok evs -> crit_ok (the_criteria c) ->
  dt_ok b = true -> dt_ok pe = true -> b < MAXORD * DAY -> pe < MAXORD * DAY ->
  (forall e, In e evs -> expand_room e pe) ->
  exists N, forall F, (N <= F)%nat -> exists l, get_occurrences_segmented F evs (Some b, Some pe) c = Ok l.
Proof.
  intros OK C OB OE LB LE RM.
  destruct (get_occurrences_total evs b pe c OK C (proj1 (proj1 (dt_ok_date pe) OE)) RM) as [N HN].
  exists N. intros F HF. unfold get_occurrences_segmented. destruct (HN F HF) as [l G]. rewrite G. cbn [rbind assert_bounded].
  apply segments_total; try assumption. intros o Ho.
  apply (get_occurrences_in _ _ _ _ _ _ OK G) in Ho as (e & t & d & H1 & _ & D & -> & T1 & T2 & T3). cbn [o_dtstart o_duration].
  destruct (OK e H1) as [(O1 & d' & D' & D0 & D1) O2]. rewrite D in D'. injection D' as <-.
  assert (LO : DAY <= t).
  { unfold occurs, event_rule_ok in *. destruct (e_recurrence e) as [r|].
    - destruct T1 as [T1 T1']. apply dt_ok_date in O1. unfold rule_selects in T1'.
      assert (dt_date (e_dtstart e) <= dt_date t) by (destruct (r_kind r); lia). unfold dt_date, DAY in *. lia.
    - subst t. unfold dt_ok in O1. lia. }
  assert (TE : dt_ok (t + d) = true).
  { specialize (RM e H1). unfold expand_room, occurs in *. destruct (e_recurrence e) as [r|].
    - destruct RM as [_ RM]. specialize (RM d D). unfold dt_ok, DAY, MAXORD in *. lia.
    - subst t. exact D1. }
  split; [unfold dt_ok, DAY, MAXORD in *; lia|]. split; [lia|]. exists d. auto.
Qed.
