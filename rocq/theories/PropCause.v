(** When a query raises, and what (C143); when two times are on one day (C24). *)
From Verif Require Import Base PyDate DateFacts SpecRecur RecurProofs RecurOrder Recurrent UtilProofs CalTime TimeProofs Event Storage
  QueryProofs BlockProofs PropQuery PropNarrow.
From Coq Require Import ZifyBool.
Ltac Zify.zify_post_hook ::= Z.div_mod_to_equations.
Local Opaque ord2ymd year_of month_of day_of ymd2ord days_in_month is_leap.

(** * C24: times of one day *)
Theorem C24_same_day : forall t u, same_day t u = true <-> exists D, D * DAY <= t < (D + 1) * DAY /\ D * DAY <= u < (D + 1) * DAY.
Proof.
  intros t u. unfold same_day. split.
  - intros H. exists (dt_date t). unfold dt_date, DAY in *. lia.
  - intros (D & H). unfold dt_date, DAY in *. lia.
Qed.
Print Assumptions C24_same_day.
Example C24_same_day_case : same_day (at_ 1 0) (at_ 1 23) = true /\ same_day (at_ 1 23) (at_ 2 0) = false /\ same_day (at_ 2 0) (at_ 1 23) = false.
Proof. vm_compute. auto. Qed.

(** * C143: why a query raises *)
(** an event that starts at [t] and lasts [d] has no end: it has no length, or it
    would end after the end of the calendar (or begin and end before its start) *)
Definition no_end (t : Z) (d : option Z) (x : exn) : Prop :=
  (d = None /\ x = TypeError)
  \/ exists n, d = Some n /\ ~ (DAY <= t + n < (MAXORD + 1) * DAY) /\ x = OverflowError.

(** [e] is the first of [evs] with the property *)
Definition first_of (evs : list event) (e : event) (P : event -> Prop) : Prop :=
  exists before after, evs = before ++ e :: after /\ P e /\ forall e', In e' before -> ~ P e'.

(** The dates of [e] up to the end [b] that are looked at, how the rule's generator
    ended, and what then raises: the first date whose occurrence has no end, or
    else the rule itself. *)
Definition breaks (F : nat) (b : Z) (e : event) (x : exn) : Prop :=
  match e_recurrence e with
  | None => no_end (e_dtstart e) (e_duration e) x
  | Some r =>
      let (dates, how) := apply F r (e_dtstart e) (Some (VDate (dt_date b))) in
      (exists before d after, dates = before ++ d :: after
         /\ no_end (d * DAY + dt_time (e_dtstart e)) (e_duration e) x
         /\ forall d', In d' before -> ~ exists y, no_end (d' * DAY + dt_time (e_dtstart e)) (e_duration e) y)
      \/ ((forall d, In d dates -> ~ exists y, no_end (d * DAY + dt_time (e_dtstart e)) (e_duration e) y) /\ how = GRaise x)
  end.

(** ** Proofs *)
Lemma rfilter_raise {A} (f : A -> res bool) x : forall l, rfilter f l = Raise x <->
  exists pre a post, l = pre ++ a :: post /\ f a = Raise x /\ forall y, In y pre -> exists b, f y = Ok b.
Proof.
  induction l as [|a l IH]; cbn [rfilter].
  - split; [discriminate|]. intros (pre & a & post & E & _). destruct pre; discriminate.
  - split.
    + destruct (f a) as [b|y|] eqn:Fa; cbn [rbind]; try discriminate.
      * destruct (rfilter f l) as [r|y|]; cbn [rbind]; try discriminate. intros E. apply IH in E as (pre & a' & post & -> & P & Q).
        exists (a :: pre), a', post. split; [reflexivity|]. split; [exact P|]. intros z [<-|Hz]; eauto.
      * intros E. injection E as ->. exists [], a, l. split; [reflexivity|]. split; [exact Fa|]. intros ? [].
    + intros (pre & a' & post & E & P & Q). destruct pre as [|z pre]; injection E as -> ->.
      * rewrite P. reflexivity.
      * destruct (Q z (or_introl eq_refl)) as [b ->]. cbn [rbind].
        assert (X : rfilter f (pre ++ a' :: post) = Raise x) by (apply IH; exists pre, a', post; split; [reflexivity|]; split; [exact P|]; intros y Hy; apply Q; now right).
        now rewrite X.
Qed.

Lemma rconcat_raise {A B} (f : A -> res (list B)) x : forall l, rconcat_map f l = Raise x <->
  exists pre a post, l = pre ++ a :: post /\ f a = Raise x /\ forall y, In y pre -> exists b, f y = Ok b.
Proof.
  induction l as [|a l IH]; cbn [rconcat_map].
  - split; [discriminate|]. intros (pre & a & post & E & _). destruct pre; discriminate.
  - split.
    + destruct (f a) as [b|y|] eqn:Fa; cbn [rbind]; try discriminate.
      * destruct (rconcat_map f l) as [r|y|]; cbn [rbind]; try discriminate. intros E. apply IH in E as (pre & a' & post & -> & P & Q).
        exists (a :: pre), a', post. split; [reflexivity|]. split; [exact P|]. intros z [<-|Hz]; eauto.
      * intros E. injection E as ->. exists [], a, l. split; [reflexivity|]. split; [exact Fa|]. intros ? [].
    + intros (pre & a' & post & E & P & Q). destruct pre as [|z pre]; injection E as -> ->.
      * rewrite P. reflexivity.
      * destruct (Q z (or_introl eq_refl)) as [b ->]. cbn [rbind].
        assert (X : rconcat_map f (pre ++ a' :: post) = Raise x) by (apply IH; exists pre, a', post; split; [reflexivity|]; split; [exact P|]; intros y Hy; apply Q; now right).
        now rewrite X.
Qed.

(** the events that match are those of the list that satisfy the criteria, in its order *)
Lemma matching_split evs c m : matching_events evs c = Ok m -> forall (P Q : event -> Prop),
  (exists pre e post, m = pre ++ e :: post /\ P e /\ forall y, In y pre -> Q y)
  <-> (exists pre e post, evs = pre ++ e :: post /\ (satisfies (the_criteria c) e /\ P e) /\ forall y, In y pre -> satisfies (the_criteria c) y -> Q y).
Proof.
  unfold matching_events. fold (the_criteria c). revert m.
  induction evs as [|a evs IH]; intros m E P Q; cbn [rfilter] in E.
  - injection E as <-. split; intros (pre & e & post & X & _); destruct pre; discriminate.
  - destruct (match_criteria (the_criteria c) a) as [b| |] eqn:M; try discriminate. cbn [rbind] in E.
    destruct (rfilter _ evs) as [r| |]; try discriminate. cbn [rbind] in E. injection E as <-.
    pose proof (match_spec _ _ _ M) as MS. specialize (IH r eq_refl P Q). destruct b; split.
    + intros (pre & e & post & E & Pe & Qp). destruct pre as [|z pre]; injection E as -> ->.
      * exists [], e, evs. split; [reflexivity|]. split; [tauto|]. intros ? [].
      * destruct (proj1 IH) as (pre' & e' & post' & -> & H1 & H2).
        { exists pre, e, post. split; [reflexivity|]. split; [exact Pe|]. intros y Hy. apply Qp. now right. }
        exists (z :: pre'), e', post'. split; [reflexivity|]. split; [exact H1|]. intros y [<-|Hy] S; [apply Qp; now left|now apply H2].
    + intros (pre & e & post & E & [Se Pe] & Qp). destruct pre as [|z pre]; injection E as -> ->.
      * exists [], e, r. split; [reflexivity|]. split; [exact Pe|]. intros ? [].
      * destruct (proj2 IH) as (pre' & e' & post' & -> & H1 & H2).
        { exists pre, e, post. split; [reflexivity|]. split; [tauto|]. intros y Hy. apply Qp. now right. }
        exists (z :: pre'), e', post'. split; [reflexivity|]. split; [exact H1|]. intros y [<-|Hy]; [apply Qp; [now left|tauto]|now apply H2].
    + intros H. destruct (proj1 IH H) as (pre & e & post & -> & H1 & H2). exists (a :: pre), e, post. split; [reflexivity|]. split; [exact H1|].
      intros y [<-|Hy] S; [exfalso; apply MS in S; discriminate|now apply H2].
    + intros (pre & e & post & E & [Se Pe] & Qp). destruct pre as [|z pre]; injection E as -> ->.
      * exfalso. apply MS in Se. discriminate.
      * apply IH. exists pre, e, post. split; [reflexivity|]. split; [tauto|]. intros y Hy. apply Qp. now right.
Qed.

Lemma in_period_raise t d a e x : in_period t d (Some a, e) = Raise x <-> no_end t d x.
Proof.
  unfold in_period, no_end. destruct d as [n|]; cbn [end_of].
  - unfold dt_add. destruct (dt_ok (t + n)) eqn:O; cbn [rbind].
    + split; [destruct (_ <=? a), e; discriminate|]. intros [[? _]|(m & E & N & _)]; [discriminate|]. injection E as <-. unfold dt_ok in O. lia.
    + split; [intros E; injection E as <-; right; exists n; split; [reflexivity|]; unfold dt_ok in O; split; [lia|reflexivity]|].
      intros [[? _]|(m & _ & _ & ->)]; [discriminate|reflexivity].
  - cbn [rbind]. split; [intros E; injection E as <-; now left|]. intros [[_ ->]|(m & ? & _)]; [reflexivity|discriminate].
Qed.

Lemma in_period_fine t d a e : (exists b, in_period t d (Some a, e) = Ok b) <-> ~ exists x, no_end t d x.
Proof.
  split.
  - intros [b E] [x N]. apply (in_period_raise t d a e) in N. congruence.
  - intros N. destruct (in_period t d (Some a, e)) as [b|x|] eqn:E; [eauto|exfalso; apply N; exists x; now apply (in_period_raise t d a e)|].
    exfalso. unfold in_period, end_of, dt_add in E. destruct d as [n|]; [|discriminate]. destruct (dt_ok _); [|discriminate].
    cbn [rbind] in E. destruct (_ <=? a), e; discriminate.
Qed.

Lemma ma_cons c e i (r : list attendee) : (att_match c e i /\ match_attendees c e (@cons attendee (Some i) r) = Ok true)
  \/ (~ att_match c e i /\ match_attendees c e (@cons attendee (Some i) r) = match_attendees c e r).
Proof.
  cbn [match_attendees]. unfold has_attendee, get_status, get_role, att_match, attends. cbn [attendee_id rbind].
  destruct (dget (e_state e) i) as [st|]; cbn [negb].
  - destruct (match c_status c with Some s => negb (opt_str_eqb (Some s) (Some st)) | None => false end) eqn:CS.
    + right. split; [|reflexivity]. intros (st' & E & A & _). injection E as <-. destruct (c_status c) as [s|]; [|discriminate].
      rewrite (A s eq_refl), (proj2 (opt_str_eqb_eq _ _) eq_refl) in CS. discriminate.
    + destruct (match c_role c with Some s => negb (opt_str_eqb (Some s) (dget (e_role e) i)) | None => false end) eqn:CR.
      * right. split; [|reflexivity]. intros (st' & _ & _ & A). destruct (c_role c) as [s|]; [|discriminate].
        rewrite (A s eq_refl), (proj2 (opt_str_eqb_eq _ _) eq_refl) in CR. discriminate.
      * left. split; [|reflexivity]. exists st. split; [reflexivity|]. split; intros s Hs.
        -- rewrite Hs in CS. apply negb_false_iff, opt_str_eqb_eq in CS. congruence.
        -- rewrite Hs in CR. apply negb_false_iff, opt_str_eqb_eq in CR. congruence.
  - right. split; [|reflexivity]. intros (st' & E & _). discriminate.
Qed.

Lemma match_attendees_raise c e x : forall l, match_attendees c e l = Raise x <->
  x = AttributeError /\ exists before after, l = before ++ None :: after /\ forall i, In (Some i) before -> ~ att_match c e i.
Proof.
  induction l as [|a l IH].
  - cbn. split; [discriminate|]. intros (_ & pre & post & E & _). destruct pre; discriminate.
  - destruct a as [i|].
    + destruct (ma_cons c e i l) as [[M ->]|[M ->]].
      * split; [discriminate|]. intros (_ & pre & post & E & H). destruct pre as [|z pre]; [discriminate|]. injection E as <- _.
        exfalso. exact (H i (or_introl eq_refl) M).
      * rewrite IH. split; intros (-> & pre & post & E & H); (split; [reflexivity|]).
        -- subst l. exists (Some i :: pre), post. split; [reflexivity|]. intros j [J|J]; [injection J as <-; exact M|now apply H].
        -- destruct pre as [|z pre]; [discriminate|]. injection E as <- ->. exists pre, post. split; [reflexivity|].
           intros j J. apply H. now right.
    + cbn. split.
      * intros E. injection E as <-. split; [reflexivity|]. exists [], l. split; [reflexivity|]. intros ? [].
      * intros (-> & _). reflexivity.
Qed.

(** the criteria name somebody without an id *)
Theorem C143_criteria c e x : match_criteria c e = Raise x <->
  x = AttributeError
  /\ (forall cats, c_categories c = Some cats -> exists k, In k cats /\ In k (e_categories e))
  /\ (c_organizer c = Some None
      \/ ((forall o, c_organizer c = Some o -> exists i, o = Some i /\ e_organizer e = Some i)
          /\ exists before after, c_attendees c = Some (before ++ None :: after)
             /\ forall i, In (Some i) before -> ~ exists st, dget (e_state e) i = Some st
                  /\ (forall s, c_status c = Some s -> st = s) /\ (forall r, c_role c = Some r -> dget (e_role e) i = Some r))).
Proof.
  unfold match_criteria.
  destruct (match c_categories c with Some cats => negb (existsb (in_category e) cats) | None => false end) eqn:CC.
  - split; [discriminate|]. intros (_ & H & _). exfalso. destruct (c_categories c) as [cats|]; [|discriminate].
    destruct (H cats eq_refl) as (k & K1 & K2). apply negb_true_iff in CC. rewrite <- not_true_iff_false in CC. apply CC, existsb_exists.
    exists k. split; [exact K1|]. now apply str_in_iff.
  - assert (CP : forall cats, c_categories c = Some cats -> exists k, In k cats /\ In k (e_categories e)).
    { intros cats E. rewrite E in CC. apply negb_false_iff, existsb_exists in CC as (k & K1 & K2). exists k. split; [exact K1|]. now apply str_in_iff. }
    assert (AT : match match c_attendees c with None => Ok true | Some l => match_attendees c e l end with Raise y => y = x | _ => False end <->
      x = AttributeError /\ exists before after, c_attendees c = Some (before ++ None :: after)
             /\ forall i, In (Some i) before -> ~ att_match c e i).
    { destruct (c_attendees c) as [l|].
      - pose proof (match_attendees_raise c e x l) as R. split.
        + intros H. destruct (match_attendees c e l) as [|y|]; try contradiction. subst y. destruct (proj1 R eq_refl) as (-> & pre & post & -> & Q). split; [reflexivity|]. eauto.
        + intros (-> & pre & post & E & Q). injection E as ->. rewrite (proj2 R); [reflexivity|]. split; [reflexivity|]. eauto.
      - split; [contradiction|]. intros (_ & ? & ? & ? & _). discriminate. }
    unfold att_match, attends in AT.
    destruct (c_organizer c) as [[o|]|] eqn:CO; cbn [attendee_id rbind].
    + destruct (opt_str_eqb (get_organizer_id e) (Some o)) eqn:EO; cbn [negb].
      * apply opt_str_eqb_eq in EO. unfold get_organizer_id in EO.
        transitivity (x = AttributeError /\ exists before after, c_attendees c = Some (before ++ None :: after)
             /\ forall i, In (Some i) before -> ~ att_match c e i).
        { rewrite <- AT. destruct (match c_attendees c with None => _ | Some l => _ end) as [|y|]; (split; [try discriminate; intros E; injection E as ->; reflexivity|try contradiction; intros ->; reflexivity]). }
        split.
        -- intros (-> & H). split; [reflexivity|]. split; [exact CP|]. right. split; [|exact H]. intros o' E. injection E as <-. eauto.
        -- intros (-> & _ & [H|[_ H]]); [discriminate|]. split; [reflexivity|exact H].
      * split; [discriminate|]. intros (_ & _ & [H|[H _]]); [discriminate|]. destruct (H _ eq_refl) as (i & E & O). injection E as <-.
        unfold get_organizer_id in EO. rewrite O, (proj2 (opt_str_eqb_eq _ _) eq_refl) in EO. discriminate.
    + split; [intros E; injection E as <-; auto|]. intros (-> & _). reflexivity.
    + transitivity (x = AttributeError /\ exists before after, c_attendees c = Some (before ++ None :: after)
             /\ forall i, In (Some i) before -> ~ att_match c e i).
      { rewrite <- AT. destruct (match c_attendees c with None => _ | Some l => _ end) as [|y|]; (split; [try discriminate; intros E; injection E as ->; reflexivity|try contradiction; intros ->; reflexivity]). }
      split.
      * intros (-> & H). split; [reflexivity|]. split; [exact CP|]. right. split; [|exact H]. intros o' E. discriminate.
      * intros (-> & _ & [H|[_ H]]); [discriminate|]. split; [reflexivity|exact H].
Qed.
Print Assumptions C143_criteria.

(** Events: with a begin, the first event that satisfies the criteria and has no end. *)
Theorem C143_events evs p c x : crit_ok (match c with Some c => c | None => no_criteria end) ->
  (get_events evs p c = Raise x <->
   fst p <> None /\ exists e, no_end (e_dtstart e) (e_duration e) x
     /\ first_of evs e (fun e => satisfies (match c with Some c => c | None => no_criteria end) e
                                 /\ exists y, no_end (e_dtstart e) (e_duration e) y)).
Proof.
  intros CK. fold (the_criteria c) in *. unfold get_events. destruct (matching_total evs c CK) as [m M]. rewrite M. cbn [rbind].
  destruct p as [a b]. cbn [fst]. rewrite rfilter_raise. destruct a as [a|].
  - transitivity (exists pre e post, m = pre ++ e :: post /\ no_end (e_dtstart e) (e_duration e) x
      /\ forall y, In y pre -> ~ exists z, no_end (e_dtstart y) (e_duration y) z).
    { split; intros (pre & e & post & E & P & Q); exists pre, e, post; (split; [exact E|]); (split; [now apply (in_period_raise _ _ a b)|]);
        intros y Hy; apply (in_period_fine _ _ a b); now apply Q. }
    rewrite (matching_split evs c m M (fun e => no_end (e_dtstart e) (e_duration e) x) (fun y => ~ exists z, no_end (e_dtstart y) (e_duration y) z)).
    split.
    + intros (pre & e & post & E & [S P] & Q). split; [discriminate|]. exists e. split; [exact P|]. exists pre, post. split; [exact E|].
      split; [split; [exact S|eauto]|]. intros e' He [S' N]. exact (Q e' He S' N).
    + intros (_ & e & P & pre & post & E & [S _] & Q). exists pre, e, post. split; [exact E|]. split; [auto|]. intros y Hy Sy N. exact (Q y Hy (conj Sy N)).
  - split; [|intros [H _]; congruence]. intros (pre & e & post & _ & P & _). unfold in_period in P. destruct b; discriminate.
Qed.
Print Assumptions C143_events.

Lemma expand_dates_raise e a b x : forall l, expand_dates e (Some a, Some b) l = Raise x <->
  exists before d after, l = before ++ d :: after
     /\ no_end (d * DAY + dt_time (e_dtstart e)) (e_duration e) x
     /\ forall d', In d' before -> ~ exists y, no_end (d' * DAY + dt_time (e_dtstart e)) (e_duration e) y.
Proof.
  intros l. unfold expand_dates. rewrite rconcat_raise.
  assert (R : forall d y, (let* b0 := in_period (combine d (dt_time (e_dtstart e))) (e_duration e) (Some a, Some b) in
      Ok (if b0 then [mkOcc (combine d (dt_time (e_dtstart e))) (e_duration e) e] else [])) = Raise y <-> no_end (d * DAY + dt_time (e_dtstart e)) (e_duration e) y).
  { intros d y. rewrite <- (in_period_raise _ _ a (Some b)). unfold combine. destruct (in_period _ _ _); cbn [rbind]; split; congruence. }
  assert (G : forall d, (exists ys, (let* b0 := in_period (combine d (dt_time (e_dtstart e))) (e_duration e) (Some a, Some b) in
      Ok (if b0 then [mkOcc (combine d (dt_time (e_dtstart e))) (e_duration e) e] else [])) = Ok ys) <-> ~ exists y, no_end (d * DAY + dt_time (e_dtstart e)) (e_duration e) y).
  { intros d. rewrite <- (in_period_fine _ _ a (Some b)). unfold combine. destruct (in_period _ _ _); cbn [rbind]; split; intros [? E]; try discriminate; eauto. }
  split; intros (pre & d & post & E & P & Q); exists pre, d, post; (split; [exact E|]); (split; [now apply R|]); intros y Hy; apply G; now apply Q.
Qed.

Lemma expand_dates_fine e a b l : (exists out, expand_dates e (Some a, Some b) l = Ok out) <->
  forall d, In d l -> ~ exists y, no_end (d * DAY + dt_time (e_dtstart e)) (e_duration e) y.
Proof.
  split.
  - intros [out E] d Hd. unfold expand_dates in E. destruct (rconcat_all _ _ _ E d Hd) as [ys Y]. cbn beta in Y.
    rewrite <- (in_period_fine _ _ a (Some b)). unfold combine in Y. destruct (in_period _ _ _); try discriminate. eauto.
  - intros H. unfold expand_dates. apply rconcat_ok. intros d Hd. specialize (H d Hd). rewrite <- (in_period_fine _ _ a (Some b)) in H.
    destruct H as [z Z]. unfold combine. rewrite Z. cbn [rbind]. eauto.
Qed.

Lemma in_period_fuel t d p : in_period t d p <> OutOfFuel.
Proof.
  unfold in_period, end_of, dt_add. destruct p as [[a|] [b|]], d as [n|]; try discriminate; destruct (dt_ok (t + n)); cbn [rbind]; try discriminate; destruct (_ <=? a); discriminate.
Qed.

Lemma expand_dates_fuel e p : forall l, expand_dates e p l <> OutOfFuel.
Proof.
  intros l. unfold expand_dates. induction l as [|d l IH]; [discriminate|]. cbn [rconcat_map].
  pose proof (in_period_fuel (combine d (dt_time (e_dtstart e))) (e_duration e) p) as N.
  destruct (in_period _ _ p) as [b| |]; cbn [rbind]; try congruence. destruct (rconcat_map _ l); cbn [rbind]; congruence.
Qed.

Lemma expand_raise F e a b x : expand F e (Some a, Some b) = Raise x <-> breaks F b e x.
Proof.
  unfold expand, breaks. destruct (e_recurrence e) as [r|].
  - cbn [snd]. destruct (apply F r (e_dtstart e) (Some (VDate (dt_date b)))) as [l f].
    pose proof (expand_dates_raise e a b x l) as R. pose proof (expand_dates_fine e a b l) as G. pose proof (expand_dates_fuel e (Some a, Some b) l) as N.
    destruct (expand_dates e (Some a, Some b) l) as [out|y|] eqn:X; cbn [rbind]; [| |congruence].
    + split.
      * intros E. right. split; [apply G; eauto|]. destruct f; congruence.
      * intros [H|[_ ->]]; [apply R in H; discriminate|reflexivity].
    + split.
      * intros E. left. apply R. exact E.
      * intros [H|[H _]]; [now apply R|]. apply G in H as [? ?]. discriminate.
  - rewrite <- (in_period_raise _ _ a (Some b)). destruct (in_period _ _ _); cbn [rbind]; split; congruence.
Qed.

(** Occurrences: the first event that satisfies the criteria and cannot be expanded. *)
Theorem C143_occurrences F evs a b c x : crit_ok (match c with Some c => c | None => no_criteria end) ->
  (get_occurrences F evs (Some a, Some b) c = Raise x <->
   exists before e after, evs = before ++ e :: after
     /\ satisfies (match c with Some c => c | None => no_criteria end) e /\ breaks F b e x
     /\ forall e', In e' before -> satisfies (match c with Some c => c | None => no_criteria end) e' ->
          exists l, expand F e' (Some a, Some b) = Ok l).
Proof.
  intros CK. fold (the_criteria c) in *. unfold get_occurrences. cbn [assert_bounded rbind].
  destruct (matching_total evs c CK) as [m M]. rewrite M. cbn [rbind]. rewrite rconcat_raise.
  rewrite (matching_split evs c m M (fun e => expand F e (Some a, Some b) = Raise x) (fun y => exists l, expand F y (Some a, Some b) = Ok l)).
  split; intros (pre & e & post & E & P & Q); exists pre, e, post; (split; [exact E|]).
  - destruct P as [S P]. split; [exact S|]. split; [now apply (expand_raise F e a b)|exact Q].
  - destruct Q as [P' Q]. split; [split; [exact P|now apply (expand_raise F e a b)]|exact Q].
Qed.
Print Assumptions C143_occurrences.

(** ** Segments, blocked and free periods *)
Lemma borders_raise : forall F x y e z, day_borders F x y e = Raise z -> z = OverflowError.
Proof.
  induction F as [|F IH]; intros x y e z B; [discriminate|]. cbn [day_borders] in B. rewrite next_midnight_eq in B.
  destruct (dt_ok _); cbn [rbind] in B; [|congruence]. destruct (_ || _); [discriminate|].
  destruct (day_borders F _ y e) as [r|w|] eqn:R; cbn [rbind] in B; try discriminate. injection B as ->. exact (IH _ _ _ _ R).
Qed.

(** an occurrence can be cut into days exactly if neither it (as far as it lies in
    the period) nor the period's start reaches the last day of the calendar *)
Lemma segment_one_raise {A} a b (o : occurrence A) d x : dt_ok a = true -> dt_ok b = true ->
  o_duration o = Some d -> dt_ok (o_dtstart o + d) = true ->
  (segment_one a b o = Raise x <->
   x = OverflowError /\ (MAXORD * DAY <= Z.max (o_dtstart o) a \/ MAXORD * DAY <= Z.min (o_dtstart o + d) b)).
Proof.
  intros OA OB D O. split.
  - intros E. assert (X : x = OverflowError).
    { unfold segment_one in E. rewrite D in E. unfold end_of, dt_add in E. rewrite O in E. cbn [rbind] in E.
      set (x0 := if o_dtstart o <? a then a else o_dtstart o) in *.
      destruct (day_borders (border_fuel x0 b) x0 (o_dtstart o + d) b) as [l|y|] eqn:B; cbn [rbind] in E; try discriminate.
      - destruct (segment_one_gives a b o d OA OB D O) as [out S].
        + apply borders_first in B. subst x0. destruct (o_dtstart o <? a) eqn:?; lia.
        + now apply borders_last in B.
        + unfold segment_one in S. rewrite D in S. unfold end_of, dt_add in S. rewrite O in S. cbn [rbind] in S. fold x0 in S. rewrite B in S. cbn [rbind] in S. congruence.
      - injection E as <-. now apply borders_raise in B. }
    split; [exact X|]. destruct (Z_lt_ge_dec (Z.max (o_dtstart o) a) (MAXORD * DAY)) as [L1|L1]; [|left; lia].
    destruct (Z_lt_ge_dec (Z.min (o_dtstart o + d) b) (MAXORD * DAY)) as [L2|L2]; [|right; lia].
    destruct (segment_one_gives a b o d OA OB D O L1 L2) as [out S]. congruence.
  - intros [-> H]. unfold segment_one. rewrite D. unfold end_of, dt_add. rewrite O. cbn [rbind].
    set (x0 := if o_dtstart o <? a then a else o_dtstart o) in *.
    assert (X0 : x0 = Z.max (o_dtstart o) a) by (subst x0; destruct (o_dtstart o <? a) eqn:?; lia).
    pose proof (day_borders_fuel (border_fuel x0 b) x0 (o_dtstart o + d) b (proj1 (border_fuel_ok x0 b)) (proj2 (border_fuel_ok x0 b))) as NF.
    destruct (day_borders (border_fuel x0 b) x0 (o_dtstart o + d) b) as [l|y|] eqn:B; cbn [rbind]; [exfalso| |congruence].
    + pose proof (borders_first _ _ _ _ _ B). pose proof (borders_last _ _ _ _ _ B). lia.
    + apply borders_raise in B. now subst.
Qed.

(** Segmented occurrences: what the occurrences raise, or OverflowError as soon as
    one of them (or the start of the period) reaches the last day of the calendar. *)
Theorem C143_segmented F evs a b c x : dt_ok a = true -> dt_ok b = true ->
  (get_occurrences_segmented F evs (Some a, Some b) c = Raise x <->
   get_occurrences F evs (Some a, Some b) c = Raise x
   \/ (x = OverflowError /\ exists l o d, get_occurrences F evs (Some a, Some b) c = Ok l /\ In o l /\ o_duration o = Some d
         /\ (MAXORD * DAY <= Z.max (o_dtstart o) a \/ MAXORD * DAY <= Z.min (o_dtstart o + d) b))).
Proof.
  intros OA OB. unfold get_occurrences_segmented. destruct (get_occurrences F evs (Some a, Some b) c) as [l|y|] eqn:W; cbn [rbind assert_bounded].
  - unfold segment_occurrences. cbn [fst snd]. pose proof (occurrences_within _ _ _ _ _ _ W) as IN.
    assert (SR : forall o y, In o l -> forall d, o_duration o = Some d -> (segment_one a b o = Raise y <->
       y = OverflowError /\ (MAXORD * DAY <= Z.max (o_dtstart o) a \/ MAXORD * DAY <= Z.min (o_dtstart o + d) b))).
    { intros o y Ho d D. destruct (IN o Ho) as (d' & D' & O & _). assert (d' = d) by congruence. subst. now apply segment_one_raise. }
    split.
    + intros E. right. apply rconcat_raise in E as (pre & o & post & EQ & R & _).
      assert (Ho : In o l) by (rewrite EQ; apply in_elt). destruct (IN o Ho) as (d & D & _). apply (SR o x Ho d D) in R as [-> R].
      split; [reflexivity|]. exists l, o, d. auto.
    + intros [H|(-> & l' & o & d & E & Ho & D & H)]; [discriminate|]. injection E as <-.
      clear W. induction l as [|z l IH]; [destruct Ho|]. cbn [rconcat_map].
      assert (HZ : (exists ys, segment_one a b z = Ok ys) \/ segment_one a b z = Raise OverflowError).
      { destruct (IN z (or_introl eq_refl)) as (d' & D' & O & _).
        destruct (Z_lt_ge_dec (Z.max (o_dtstart z) a) (MAXORD * DAY)) as [L1|L1]; [|right; apply (SR z _ (or_introl eq_refl) d' D'); split; [reflexivity|lia]].
        destruct (Z_lt_ge_dec (Z.min (o_dtstart z + d') b) (MAXORD * DAY)) as [L2|L2]; [|right; apply (SR z _ (or_introl eq_refl) d' D'); split; [reflexivity|lia]].
        left. exact (segment_one_gives a b z d' OA OB D' O L1 L2). }
      destruct HZ as [[ys Y]|Y]; rewrite Y; cbn [rbind]; [|reflexivity].
      destruct Ho as [->|Ho].
      * exfalso. assert (X : segment_one a b o = Raise OverflowError) by (apply (SR o _ (or_introl eq_refl) d D); auto). congruence.
      * assert (X : rconcat_map (segment_one a b) l = Raise OverflowError).
        { apply IH; [intros o' Ho'; apply IN; now right|intros o' y Ho' d' D'; apply SR; [now right|exact D']|exact Ho]. }
        now rewrite X.
  - split; [intros E; left; exact E|]. intros [E|(_ & ? & ? & ? & E & _)]; [exact E|discriminate].
  - split; [discriminate|]. intros [E|(_ & ? & ? & ? & E & _)]; discriminate.
Qed.
Print Assumptions C143_segmented.

(** Blocked periods: what the first attendee's segments raise that cannot be had, or
    OverflowError if the period reaches into the last day of the calendar. *)
Theorem C143_blocked F evs atts a b tb te x : dt_ok a = true -> dt_ok b = true -> a < b ->
  (get_blocked F evs atts a b tb te = Raise x <->
   (exists before i after, atts = before ++ i :: after
      /\ get_occurrences_segmented F evs (Some a, Some b) (Some (mk_criteria (AMany [i]) None None None None)) = Raise x
      /\ forall j, In j before -> exists l, get_occurrences_segmented F evs (Some a, Some b) (Some (mk_criteria (AMany [j]) None None None None)) = Ok l)
   \/ ((forall i, In i atts -> exists l, get_occurrences_segmented F evs (Some a, Some b) (Some (mk_criteria (AMany [i]) None None None None)) = Ok l)
       /\ x = OverflowError /\ MAXORD * DAY < b)).
Proof.
  intros OA OB AB. unfold get_blocked.
  set (seg := fun i => get_occurrences_segmented F evs (Some a, Some b) (Some (mk_criteria (AMany [i]) None None None None))).
  assert (ST : forall i, (exists ys, (let* occs := seg i in rconcat_map (blocked_of i a b tb te) occs) = Ok ys) <-> exists l, seg i = Ok l).
  { intros i. destruct (seg i) as [occs| |] eqn:S; cbn [rbind]; split; intros [? E]; try discriminate; [eauto|].
    exact (blocked_of_answers _ _ _ _ _ _ _ _ S). }
  assert (SRR : forall i, (let* occs := seg i in rconcat_map (blocked_of i a b tb te) occs) = Raise x <-> seg i = Raise x).
  { intros i. destruct (seg i) as [occs| |] eqn:S; cbn [rbind]; split; intros E; try discriminate; try congruence.
    destruct (blocked_of_answers _ _ _ _ _ tb te _ S) as [? X]. congruence. }
  fold seg. change (fun a0 => let* occs := get_occurrences_segmented F evs (Some a, Some b) (Some (mk_criteria (AMany [a0]) None None None None)) in
       rconcat_map (blocked_of a0 a b tb te) occs) with (fun i => let* occs := seg i in rconcat_map (blocked_of i a b tb te) occs).
  assert (NB : exists k, (if dt_time b =? 0 then date_add (dt_date b) (-1) else Ok (dt_date b)) = Ok k
     /\ k = dt_date (b - 1)).
  { apply dt_ok_date in OA, OB. destruct (dt_time b =? 0) eqn:T.
    - unfold date_add. assert (2 <= dt_date b) by (unfold dt_date, dt_time, DAY in *; lia).
      replace ((1 <=? dt_date b + -1) && (dt_date b + -1 <=? MAXORD)) with true by lia. eexists. split; [reflexivity|]. unfold dt_date, dt_time, DAY in *; lia.
    - eexists. split; [reflexivity|]. unfold dt_date, dt_time, DAY in *; lia. }
  destruct NB as (k & -> & K). cbn [rbind].
  assert (NR : forall n d y, night_blocks n tb te d k = Raise y -> y = OverflowError).
  { induction n as [|n IH]; intros d y E; [discriminate|]. cbn [night_blocks] in E. destruct (d <=? k); [|discriminate].
    unfold date_add in E at 1. destruct (_ && _); cbn [rbind] in E; [|congruence].
    destruct (night_blocks n tb te (d + 1) k) eqn:R; cbn [rbind] in E; try discriminate. injection E as ->. exact (IH _ _ R). }
  assert (NF : forall n d, night_blocks n tb te d k <> OutOfFuel).
  { induction n as [|n IH]; intros d; [discriminate|]. cbn [night_blocks]. destruct (d <=? k); [|discriminate].
    unfold date_add at 1. destruct (_ && _); cbn [rbind]; [|discriminate]. specialize (IH (d + 1)). destruct (night_blocks n tb te (d + 1) k); cbn [rbind]; congruence. }
  assert (NI : night_blocks (night_fuel (dt_date a) k) tb te (dt_date a) k = Raise x <-> x = OverflowError /\ MAXORD * DAY < b).
  { apply dt_ok_date in OA. split.
    - intros E. pose proof (NR _ _ _ E). split; [assumption|]. destruct (Z_lt_ge_dec (MAXORD * DAY) b) as [L|L]; [exact L|exfalso].
      destruct (night_total (night_fuel (dt_date a) k) tb te (dt_date a) k) as [nb N]; [lia| |congruence]. rewrite K. clear -L. unfold dt_date, DAY, MAXORD in *. lia.
    - intros [-> L]. destruct (night_blocks _ tb te (dt_date a) k) as [nb|y|] eqn:E; [exfalso|f_equal; exact (NR _ _ _ E)|exfalso; exact (NF _ _ E)].
      assert (KL : k < MAXORD); [|rewrite K in KL; clear -L KL; unfold dt_date, DAY, MAXORD in *; lia].
      eapply night_last; [exact E| |unfold night_fuel; lia]. rewrite K. clear -AB. unfold dt_date, DAY. lia. }
  destruct (rconcat_map (fun i => let* occs := seg i in rconcat_map (blocked_of i a b tb te) occs) atts) as [bl|y|] eqn:R; cbn [rbind].
  - assert (ALL : forall i, In i atts -> exists l, seg i = Ok l) by (intros i Hi; apply ST; exact (rconcat_all _ _ _ R i Hi)).
    split.
    + intros E. right. split; [exact ALL|]. apply NI. destruct (night_blocks _ _ _ _ _); cbn [rbind] in E; congruence.
    + intros [(pre & i & post & -> & S & _)|[_ H]]; [change (seg i = Raise x) in S; destruct (ALL i (in_elt _ _ _)) as [? X]; congruence|]. apply NI in H. now rewrite H.
  - split.
    + intros E. injection E as ->. left. apply rconcat_raise in R as (pre & i & post & EQ & S & Q). exists pre, i, post. split; [exact EQ|].
      split; [now apply SRR|]. intros j Hj. apply ST. now apply Q.
    + intros [(pre & i & post & EQ & S & Q)|[ALL _]].
      * assert (X : rconcat_map (fun i => let* occs := seg i in rconcat_map (blocked_of i a b tb te) occs) atts = Raise x).
        { apply rconcat_raise. exists pre, i, post. split; [exact EQ|]. split; [now apply SRR|]. intros j Hj. apply ST. now apply Q. }
        congruence.
      * exfalso. apply rconcat_raise in R as (pre & i & post & -> & S & _).
        destruct (proj2 (ST i) (ALL i (in_elt _ _ _))) as [? X]. congruence.
  - split; [discriminate|]. intros [(pre & i & post & EQ & S & Q)|[ALL _]].
    + assert (X : rconcat_map (fun i => let* occs := seg i in rconcat_map (blocked_of i a b tb te) occs) atts = Raise x).
      { apply rconcat_raise. exists pre, i, post. split; [exact EQ|]. split; [now apply SRR|]. intros j Hj. apply ST. now apply Q. }
      congruence.
    + destruct (rconcat_ok (fun i => let* occs := seg i in rconcat_map (blocked_of i a b tb te) occs) atts) as [out X]; [|congruence].
      intros i Hi. apply ST. now apply ALL.
Qed.
Print Assumptions C143_blocked.

(** and free periods raise what blocked periods raise *)
Theorem C143_free F evs atts a b tb te m x :
  get_free F evs atts a b tb te m = Raise x <-> get_blocked F evs atts a b tb te = Raise x.
Proof. unfold get_free. destruct (get_blocked F evs atts a b tb te); cbn [rbind]; split; congruence. Qed.
Print Assumptions C143_free.

(** an event without a length, one that reaches beyond the calendar, and one every
    29 February *)
Definition endless : event := mkEvent "m7" (at_ 1 8) None "t" "" "" "CONFIRMED" None false [] false "PUBLIC" None None [] [].
Definition beyond : event := q_event "m8" (at_ 0 8) ((MAXORD - 738886) * DAY) (Some daily) "CONFIRMED" false [("bob", "ACCEPTED")]%string.
Definition to_the_end : event := q_event "m9" (at_ 0 8) ((MAXORD - 738886) * DAY) None "CONFIRMED" false [("bob", "ACCEPTED")]%string.
Example C143_case :
  get_events [ev1; endless; ev2] (Some (at_ 0 0), None) None = Raise TypeError
  /\ get_events [ev1; endless; ev2] (None, Some (at_ 2 0)) None = Ok [ev1; endless; ev2]
  /\ get_occurrences 50 [ev1; endless; leap] (Some (at_ 0 0), Some (at_ 90 0)) None = Raise TypeError
  /\ get_occurrences 50 [ev1; leap; endless] (Some (at_ 0 0), Some (at_ 90 0)) None = Raise ValueError
  /\ get_occurrences 50 [beyond] (Some (at_ 0 0), Some (at_ 3 0)) None = Raise OverflowError
  /\ get_occurrences 50 [to_the_end] (Some (at_ 0 0), Some (MAXORD * DAY + HOUR)) None = Ok [mkOcc (at_ 0 8) (e_duration to_the_end) to_the_end]
  /\ get_occurrences_segmented 50 [to_the_end] (Some (MAXORD * DAY - DAY), Some (MAXORD * DAY + HOUR)) None = Raise OverflowError
  /\ get_blocked 50 [] [bob] (MAXORD * DAY - DAY) (MAXORD * DAY + HOUR) (9 * HOUR) (17 * HOUR) = Raise OverflowError
  /\ get_blocked 50 [leap] [bob; None] (at_ 0 0) (at_ 90 0) (9 * HOUR) (17 * HOUR) = Raise AttributeError
  /\ crit_ok no_criteria.
Proof.
  do 9 (split; [vm_compute; reflexivity|]). split; [discriminate|]. intros l E. discriminate.
Qed.
