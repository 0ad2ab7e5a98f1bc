(** Property theorems C148: very long durations (cal.py 442-453, 1072-1073,
    1093-1099; recurrent.py 132-134, 458-461). *)
From Verif Require Import Base PyDate DateFacts Recurrent CalTime Event Limits.
From Coq Require Import ZifyBool.
Ltac Zify.zify_post_hook ::= Z.div_mod_to_equations.
Local Opaque ord2ymd year_of month_of day_of ymd2ord days_in_month is_leap.

(** ** specification *)
(** the durations there are: whole days from -999999999 to 999999999, and less than a day more *)
Definition exists_td (k : Z) : Prop := exists n r, k = n * 86400000000 + r /\ -999999999 <= n <= 999999999 /\ 0 <= r < 86400000000.

(** the longest number of whole days *)
Definition longest : Z := 999999999 * 86400000000.

(** [d] is the least whole number of days that is not shorter than [k] *)
Definition whole_days_up (k d : Z) : Prop := (exists n, d = n * 86400000000) /\ k <= d < k + 86400000000.

Lemma td_ok_iff k : td_ok k = true <-> exists_td k.
Proof.
  unfold td_ok, exists_td, MAXDAYS, DAY. rewrite andb_true_iff. split.
  - intros H. exists (k / 86400000000), (k mod 86400000000). lia.
  - intros (n & r & -> & H). lia.
Qed.

Lemma mk_td_ok k : exists_td k -> mk_td k = Ok k.
Proof. intros H. apply td_ok_iff in H. unfold mk_td. now rewrite H. Qed.

Lemma mk_td_no k : ~ exists_td k -> mk_td k = Raise OverflowError.
Proof. intros H. unfold mk_td. destruct (td_ok k) eqn:E; [|reflexivity]. now apply td_ok_iff in E. Qed.

Lemma exists_td_days n : exists_td (n * DAY) <-> -999999999 <= n <= 999999999.
Proof.
  unfold exists_td, DAY. split.
  - intros (m & r & H). lia.
  - intros H. exists n, 0. lia.
Qed.

(** ** rounding up *)
Theorem C148_round td : exists_td td ->
  (td <= longest -> exists d, roundtimedelta_lim td = Ok d /\ whole_days_up td d /\ exists_td d)
  /\ (longest < td -> roundtimedelta_lim td = Raise OverflowError).
Proof.
  intros (n & r & -> & N & R). unfold roundtimedelta_lim, td_rest, td_days, longest.
  assert (E1 : (n * 86400000000 + r) / DAY = n) by (unfold DAY; lia).
  assert (E2 : (n * 86400000000 + r) mod DAY = r) by (unfold DAY; lia).
  rewrite E1, E2. destruct (Z.ltb_spec 0 r) as [P|P].
  - split.
    + intros L. rewrite mk_td_ok by (apply exists_td_days; lia). eexists. split; [reflexivity|]. unfold DAY.
      split; [split; [eexists; reflexivity|lia]|]. exists (n + 1), 0. lia.
    + intros L. apply mk_td_no. rewrite exists_td_days. lia.
  - split; [|lia]. intros L. eexists. split; [reflexivity|]. assert (r = 0) by lia. subst r. split; [split; [exists n; lia|lia]|].
    exists n, 0. lia.
Qed.
Print Assumptions C148_round.

(** ** all-day events *)
(** what alldayAdjust does with a duration that exists: it agrees with the model
    used elsewhere, which knows no limits, unless the duration is longer than the
    longest number of whole days; then it raises, and the start has moved *)
Theorem C148_adjust e : (forall d, e_duration e = Some d -> exists_td d) ->
  ((forall d, e_duration e = Some d -> d <= longest) -> allday_adjust_lim e = (allday_adjust e, [], Ok tt))
  /\ (forall d, e_duration e = Some d -> longest < d ->
      exists e', allday_adjust_lim e = (e', [], Raise OverflowError)
        /\ e_dtstart e' mod 86400000000 = 0 /\ e_dtstart e' <= e_dtstart e < e_dtstart e' + 86400000000
        /\ e' = with_time e (e_dtstart e') (e_duration e)).
Proof.
  intros H. unfold allday_adjust_lim, allday_adjust. destruct (e_duration e) as [d|] eqn:D.
  - destruct (H d eq_refl) as (n & r & -> & N & R). unfold td_days, longest.
    assert (E1 : (n * 86400000000 + r) / DAY = n) by (unfold DAY; lia). rewrite E1.
    rewrite (mk_td_ok (n * DAY)) by (apply exists_td_days; lia).
    replace (n * 86400000000 + r - n * DAY) with r by (unfold DAY; lia).
    set (n' := if negb (r =? 0) || (n =? 0) then n + 1 else n).
    assert (N' : exists_td (n' * DAY) <-> n * 86400000000 + r <= 999999999 * 86400000000).
    { rewrite exists_td_days. subst n'. destruct (Z.eqb_spec r 0) as [->|]; cbn [negb orb]; [destruct (Z.eqb_spec n 0); lia|lia]. }
    split.
    + intros L. rewrite (mk_td_ok (n' * DAY)) by (apply N', L; reflexivity). cbn [with_time e_duration e_dtstart]. reflexivity.
    + intros d' E L. injection E as <-. rewrite (mk_td_no (n' * DAY)) by (rewrite N'; lia). eexists. split; [reflexivity|].
      cbn [with_time e_dtstart]. unfold combine, dt_date, DAY. split; [lia|]. split; [lia|]. reflexivity.
  - split; [intros _; reflexivity|discriminate].
Qed.
Print Assumptions C148_adjust.

(** the constructor: an all-day event that is too long is not made *)
Theorem C148_new u sp : (forall d, s_duration sp = Some d -> exists_td d) ->
  ((s_allday sp = false \/ forall d, s_duration sp = Some d -> d <= longest) -> new_event_lim u sp = new_event u sp)
  /\ (forall d e, s_allday sp = true -> s_duration sp = Some d -> longest < d -> new_event u sp = Ok e -> new_event_lim u sp = Raise OverflowError).
Proof.
  intros H. unfold new_event_lim, new_event.
  assert (K : forall e n r, set_on_object sp (blank u) = (e, n, r) -> e_allday e = s_allday sp /\ e_duration e = s_duration sp).
  { intros e n r E.
    assert (P : forall l e0 e1 n1 r1, set_attendees e0 l = (e1, n1, r1) -> e_allday e1 = e_allday e0 /\ e_duration e1 = e_duration e0).
    { induction l as [|[[a ro] st] l IH]; intros e0 e1 n1 r1 X; [cbn in X; injection X as <- _ _; auto|]. cbn [set_attendees] in X.
      unfold set_role, set_status_raw in X. destruct (str_in ro roles); [|cbn in X; injection X as <- _ _; auto].
      destruct a as [i|]; cbn in X; [|injection X as <- _ _; auto].
      destruct st as [st|].
      - cbn in X. match type of X with context [set_attendees ?q l] => destruct (set_attendees q l) as [[e2 n2] r2] eqn:Y end.
        apply IH in Y. injection X as <- _ _. destruct Y as [-> ->]. auto.
      - cbn in X. destruct (ddel (e_state e0) i) as [s'| |] eqn:Y; cbn in X; try (injection X as <- _ _; auto).
        all: destruct (ddel (dset (e_role e0) i ro) i) as [s''| |]; cbn in X; try (injection X as <- _ _; auto).
        match type of X with context [set_attendees ?q l] => destruct (set_attendees q l) as [[e2 n2] r2] eqn:Z end.
        apply IH in Z. injection X as <- _ _. destruct Z as [-> ->]. auto. }
    unfold set_on_object in E. destruct (s_organizer sp) as [i|]; cbn in E;
      match type of E with context [set_attendees ?q ?l] => destruct (set_attendees q l) as [[e2 n2] r2] eqn:Y end;
      apply P in Y; injection E as <- _ _; destruct Y as [-> ->]; auto. }
  destruct (set_on_object sp (blank u)) as [[e n] r]. destruct (K e n r eq_refl) as [KA KD]. rewrite KA.
  destruct (C148_adjust e) as [A B]; [rewrite KD; exact H|]. split.
  - intros [N|L]; [rewrite N; reflexivity|]. rewrite KD in A. rewrite (A L). destruct r, (s_allday sp); reflexivity.
  - intros d e1 -> E L X. rewrite KD in B. destruct (B d E L) as (e' & -> & _). destruct r; [reflexivity|discriminate|discriminate].
Qed.
Print Assumptions C148_new.

(** ** everything else never meets the limit, or raises the same anyway *)
(** a step of a recurrence: what is beyond a timedelta is beyond the calendar *)
Theorem C148_step o n : 1 <= o <= 3652059 -> date_step_lim o n = date_add o n.
Proof.
  intros O. unfold date_step_lim, mk_td. destruct (td_ok (n * DAY)) eqn:E; [reflexivity|]. cbn [rbind].
  unfold date_add, MAXORD. replace ((1 <=? o + n) && (o + n <=? 3652059)) with false; [reflexivity|].
  symmetry. apply not_true_iff_false. intros X. apply not_true_iff_false in E. apply E, td_ok_iff, exists_td_days. lia.
Qed.
Print Assumptions C148_step.

(** the time between two datetimes is always a timedelta *)
Theorem C148_between t1 t2 : dt_ok t1 = true -> dt_ok t2 = true -> exists_td (t2 - t1).
Proof. unfold dt_ok, MAXORD, DAY. intros A B. apply td_ok_iff. unfold td_ok, MAXDAYS, DAY. lia. Qed.
Print Assumptions C148_between.

(** so a datetime is moved by a timedelta, or the result is not a datetime: moving
    by a length that is not a timedelta never stays in the calendar *)
Theorem C148_moved t k : dt_ok t = true -> ~ exists_td k -> dt_add t k = Raise OverflowError.
Proof.
  intros T N. unfold dt_add. destruct (dt_ok (t + k)) eqn:E; [|reflexivity]. exfalso. apply N.
  replace k with (t + k - t) by lia. now apply C148_between.
Qed.
Print Assumptions C148_moved.

(** Period, in minutes *)
Theorem C148_period t m : (exists_td (m * 60000000) -> period_lim t m = Ok (Period t m))
  /\ (~ exists_td (m * 60000000) -> period_lim t m = Raise OverflowError).
Proof.
  unfold period_lim, Period, MINUTE. split; intros H; [now rewrite mk_td_ok|now rewrite mk_td_no].
Qed.
Print Assumptions C148_period.

(** an all-day event of just more than the longest number of days, one of just
    that number, and one without a length *)
Definition x_long (d : option Z) : spec :=
  mkSpec (730000 * DAY + 9 * HOUR) d "forever" "" "" "TENTATIVE" None true [] false "PUBLIC" None None [].
Example C148_case :
  exists_td (longest + 1) /\ ~ exists_td (longest + DAY)
  /\ new_event_lim "u" (x_long (Some (longest + 1))) = Raise OverflowError
  /\ (exists e, new_event "u" (x_long (Some (longest + 1))) = Ok e)
  /\ (exists e, new_event_lim "u" (x_long (Some longest)) = Ok e /\ e_duration e = Some longest /\ e_dtstart e = 730000 * DAY)
  /\ (exists e, new_event_lim "u" (x_long (Some (longest - 1))) = Ok e /\ e_duration e = Some longest)
  /\ (exists e, new_event_lim "u" (x_long None) = Ok e /\ e_duration e = Some DAY)
  /\ (exists e', allday_adjust_lim (set_attrs (x_long (Some (longest + 1))) (blank "u")) = (e', [], Raise OverflowError)
        /\ e_dtstart e' = 730000 * DAY /\ e_duration e' = Some (longest + 1))
  /\ roundtimedelta_lim (longest + 1) = Raise OverflowError /\ roundtimedelta_lim (-1) = Ok 0
  /\ date_step_lim 730000 1000000000 = Raise OverflowError /\ date_step_lim 730000 7 = Ok 730007
  /\ period_lim 0 (10 ^ 12 * 2) = Raise OverflowError.
Proof.
  split; [apply td_ok_iff; vm_compute; reflexivity|]. split; [rewrite <- td_ok_iff; vm_compute; discriminate|].
  split; [vm_compute; reflexivity|]. split; [eexists; vm_compute; reflexivity|].
  split; [eexists; split; [vm_compute; reflexivity|split; vm_compute; reflexivity]|].
  split; [eexists; split; vm_compute; reflexivity|]. split; [eexists; split; vm_compute; reflexivity|].
  split; [eexists; split; [vm_compute; reflexivity|split; vm_compute; reflexivity]|].
  repeat split; vm_compute; reflexivity.
Qed.
