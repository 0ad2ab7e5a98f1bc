(** If applying a rule over a bounded period finishes normally, the result is
    exactly the specified list. *)
From Verif Require Import Base PyDate DateFacts Recurrent SpecRecur RecurProofs RecurExact RecurMain RecurOrder.
From Coq Require Import ZifyBool.
Ltac Zify.zify_post_hook ::= Z.div_mod_to_equations.
Local Opaque ord2ymd year_of month_of day_of ymd2ord days_in_month is_leap.

Lemma stop_check_sound on r ed s cur b : stop_check ed r cur (rank on s cur) = Ok b ->
  b = over on r ed s cur.
Proof.
  unfold stop_check, over, in_enddate, in_count, in_until.
  destruct ed as [e|]; destruct (r_count r) as [c|]; destruct (r_until r) as [[u|u|]|];
    repeat match goal with
    | |- context [if ?b then _ else _] => destruct b eqn:?
    end; intros X; try discriminate; injection X as <-; lia.
Qed.

(** [next] goes to the next designated day *)
Definition next_sound (on : Z -> Z -> bool) (s : Z) (next : Z -> res Z) : Prop :=
  forall cur c, s <= cur -> on s cur = true -> next cur = Ok c ->
    cur < c /\ on s c = true /\ forall d, cur < d < c -> on s d = false.

Lemma basic_sound on next r e s : next_sound on s next ->
  forall F cur l, s <= cur -> on s cur = true ->
  basic_loop F next r (Some e) cur (rank on s cur) = (l, GStop) ->
  l = filter (sel_ed on r (Some e) s) (days cur e).
Proof.
  intros Hn F. induction F as [|F IH]; intros cur l Hc P E; [discriminate|].
  cbn [basic_loop] in E.
  destruct (stop_check (Some e) r cur (rank on s cur)) as [b|x|] eqn:S; try discriminate.
  apply stop_check_sound in S. destruct b; symmetry in S.
  - injection E as <-. now rewrite filter_over.
  - destruct (next cur) as [c|x|] eqn:N; try discriminate.
    destruct (Hn _ _ Hc P N) as (C1 & C2 & C3).
    rewrite <- (rank_next on s cur c) in E by (assumption || lia).
    destruct (basic_loop F next r (Some e) c (rank on s c)) as [l' f] eqn:B.
    injection E as <- ->. apply IH in B; [|lia|assumption]. subst l'.
    assert (cur <= e).
    { destruct (Z_le_gt_dec cur e); [assumption|]. rewrite over_enddate in S by lia. discriminate. }
    rewrite (days_cons cur) by lia. cbn [filter].
    rewrite sel_ed_go, P by assumption. rewrite excepted_is.
    rewrite (filter_days_skip _ (cur + 1) c e); [|lia|].
    + destruct (is_exception r cur); reflexivity.
    + intros d Hd. unfold sel_ed, selected. rewrite C3 by lia. reflexivity.
Qed.

Lemma weekspan_inv a b w : weekspan a b = Ok w -> w = week_no b - week_no a.
Proof.
  unfold weekspan, date_add, week_no. 
  destruct (_ && _); cbn [rbind]; [|discriminate].
  destruct (_ && _); cbn [rbind]; [|discriminate].
  intros X. injection X as <-. unfold weekday. lia.
Qed.

Lemma weekly_sound r e s : r_kind r = KWeekly ->
  forall F cur l, s <= cur ->
  weekly_loop F r (weekday s :: r_weekdays r) (Some e) s cur (rank (on_day r) s cur) = (l, GStop) ->
  l = filter (sel_ed (on_day r) r (Some e) s) (days cur e).
Proof.
  intros K F. induction F as [|F IH]; intros cur l Hc E; [discriminate|].
  cbn [weekly_loop] in E.
  destruct (stop_check (Some e) r cur (rank (on_day r) s cur)) as [b|x|] eqn:S; try discriminate.
  apply stop_check_sound in S. destruct b; symmetry in S.
  - injection E as <-. now rewrite filter_over.
  - destruct (weekspan s cur) as [ws|x|] eqn:W; try discriminate. apply weekspan_inv in W. subst ws.
    destruct (r_interval r =? 0); [discriminate|].
    assert (Hit : ((week_no cur - week_no s) mod r_interval r =? 0)
                  && z_in (weekday cur) (weekday s :: r_weekdays r) = on_day r s cur).
    { unfold on_day. rewrite K. reflexivity. }
    rewrite Hit in E.
    destruct (date_add cur 1) as [c|x|] eqn:N; try discriminate.
    assert (c = cur + 1).
    { unfold date_add in N. destruct (_ && _); [|discriminate]. now injection N. }
    subst c.
    assert (R : (if on_day r s cur then rank (on_day r) s cur + 1 else rank (on_day r) s cur)
                = rank (on_day r) s (cur + 1)).
    { rewrite rank_succ by lia. destruct (on_day r s cur); lia. }
    rewrite R in E.
    destruct (weekly_loop F r _ (Some e) s (cur + 1) _) as [l' f] eqn:B.
    injection E as <- ->. apply IH in B; [|lia]. subst l'.
    assert (cur <= e).
    { destruct (Z_le_gt_dec cur e); [assumption|]. rewrite over_enddate in S by lia. discriminate. }
    rewrite (days_cons cur) by lia. cbn [filter].
    rewrite sel_ed_go by assumption. rewrite excepted_is.
    destruct (on_day r s cur && negb (is_exception r cur)); reflexivity.
Qed.

Lemma index_sound r e s wd index a b :
  let on := index_on (r_interval r) wd a b in
  (1 <= index /\ a = 0 /\ b = index - 1) \/ (index < 0 /\ a = 1 /\ b = index) ->
  1 <= r_interval r -> 0 <= wd <= 6 ->
  forall F k l, let cur := fw (k + a) wd + 7 * b in
  12 <= k -> every (r_interval r) (mi s) k = true -> s <= cur ->
  index_loop F r (Some e) wd index (k / 12) (k mod 12 + 1) (rank on s cur) = (l, GStop) ->
  l = filter (sel_ed on r (Some e) s) (days cur e).
Proof.
  intros on Hi Hint Hw F. induction F as [|F IH]; intros k l cur Hk E Hc EQ; [discriminate|].
  cbn [index_loop] in EQ.
  destruct (monthindex (k / 12) (k mod 12 + 1) index wd) as [x|x|] eqn:M; try discriminate.
  apply (monthindex_inv k index wd a b) in M; try assumption. destruct M as (-> & _).
  fold cur in EQ.
  destruct (stop_check (Some e) r cur (rank on s cur)) as [bb|x|] eqn:S; try discriminate.
  apply stop_check_sound in S. destruct bb; symmetry in S.
  - injection EQ as <-. now rewrite filter_over.
  - replace (k / 12 * 12 + (k mod 12 + 1) + r_interval r - 1) with (k + r_interval r) in EQ by lia.
    set (c := fw (k + r_interval r + a) wd + 7 * b).
    assert (Pcur : on s cur = true) by (subst on cur; rewrite index_on_val by lia; exact E).
    assert (E' : every (r_interval r) (mi s) (k + r_interval r) = true) by (apply every_add; [lia|exact E]).
    assert (Pc : on s c = true) by (subst on c; rewrite index_on_val by lia; exact E').
    assert (L : cur < c).
    { subst cur c. pose proof (fw_lt (k + a) (k + r_interval r + a) wd). lia. }
    assert (G : forall d, cur < d < c -> on s d = false).
    { intros d Hd. destruct (on s d) eqn:D; [exfalso|reflexivity].
      destruct (index_on_inv _ _ _ _ _ _ D) as (K1 & K2 & K3).
      set (k' := mi (d - 7 * b) - a) in *.
      assert (k < k').
      { destruct (Z_lt_le_dec k k') as [X|X]; [assumption|exfalso].
        destruct (Z.eq_dec k k') as [Y|Y]; [subst cur; rewrite Y in *; lia|].
        pose proof (fw_lt (k' + a) (k + a) wd). subst cur. lia. }
      pose proof (every_next (r_interval r) _ _ _ ltac:(lia) E K2 H) as L2.
      destruct (Z.eq_dec (k + r_interval r) k') as [Y|Y]; [subst c; rewrite Y in *; lia|].
      pose proof (fw_lt (k + r_interval r + a) (k' + a) wd). subst c. lia. }
    rewrite <- (rank_next on s cur c) in EQ by (assumption || lia).
    destruct (index_loop F r (Some e) wd index _ _ (rank on s c)) as [l' f] eqn:B.
    injection EQ as <- ->.
    apply (IH (k + r_interval r)) in B; [|lia|assumption|fold c; lia].
    fold c in B. subst l'.
    assert (cur <= e).
    { destruct (Z_le_gt_dec cur e); [assumption|]. rewrite over_enddate in S by lia. discriminate. }
    rewrite (days_cons cur) by lia. cbn [filter].
    rewrite sel_ed_go, Pcur by assumption. rewrite excepted_is.
    rewrite (filter_days_skip _ (cur + 1) c e); [|lia|].
    + destruct (is_exception r cur); reflexivity.
    + intros d Hd. unfold sel_ed, selected. rewrite G by lia. reflexivity.
Qed.

(** the three [next] functions *)
Lemma daily_next_sound r s : 1 <= r_interval r ->
  next_sound (every (r_interval r)) s (basic_next r).
Proof.
  intros Hi cur c Hc P N. unfold basic_next, date_add in N.
  destruct (_ && _); [|discriminate]. injection N as <-.
  split; [lia|]. split; [apply every_add; [lia|exact P]|].
  intros d Hd. destruct (every (r_interval r) s d) eqn:D; [exfalso|reflexivity].
  pose proof (every_next (r_interval r) s cur d ltac:(lia) P D). lia.
Qed.

Lemma yearly_next_sound r s : 1 <= r_interval r -> 1 <= s ->
  next_sound (yearly_on (r_interval r)) s (yearly_next r).
Proof.
  intros Hi Hs cur c Hc P N.
  unfold yearly_next, date_replace in N. apply py_date_ok in N.
  destruct N as (Y & C & Ec & R & E1 & E2 & E3).
  unfold yearly_on in P. rewrite !andb_true_iff, !Z.eqb_eq in P. destruct P as [[D1 M1] V1].
  split; [apply year_lt_ord; lia|]. split.
  - unfold yearly_on. rewrite E1, E2, E3, D1, M1, !Z.eqb_refl. cbn [andb]. apply every_add; [lia|exact V1].
  - intros d Hd. destruct (yearly_on (r_interval r) s d) eqn:D; [exfalso|reflexivity].
    unfold yearly_on in D. rewrite !andb_true_iff, !Z.eqb_eq in D. destruct D as [[D2 M2] V2].
    assert (year_of cur < year_of d).
    { pose proof (year_mono cur d ltac:(lia) ltac:(lia)).
      destruct (Z.eq_dec (year_of cur) (year_of d)) as [X|X]; [|lia].
      pose proof (ord_eq_civil cur d ltac:(lia) ltac:(lia)). unfold mi in H0. lia. }
    pose proof (every_next (r_interval r) _ _ _ ltac:(lia) V1 V2 H).
    pose proof (year_mono d c ltac:(lia) ltac:(lia)).
    assert (year_of d = year_of c) by lia.
    pose proof (ord_eq_civil d c ltac:(lia) ltac:(lia)). unfold mi in H3. lia.
Qed.

Lemma monthly_loop_inv F i d : forall y m c, 1 <= i -> 1 <= y -> 1 <= m <= 12 ->
  monthly_next_loop F i d y m = Ok c ->
  exists j, 1 <= j /\ 1 <= c <= MAXORD /\ mi c = y * 12 + m - 1 + j * i /\ day_of c = day_of d
  /\ forall j', 1 <= j' < j -> forall k, k = y * 12 + m - 1 + j' * i ->
       date_replace d (k / 12) (k mod 12 + 1) = Raise ValueError.
Proof.
  induction F as [|F IH]; intros y m c Hi Hy Hm E; [discriminate|].
  cbn [monthly_next_loop] in E.
  set (t := y * 12 + m - 1 + i) in *.
  destruct (date_replace d (t / 12) (t mod 12 + 1)) as [x|e|] eqn:R.
  - injection E as <-. exists 1. pose proof R as R'. unfold date_replace in R'. apply py_date_ok in R'.
    destruct R' as (Y & C & Ex & RR & E1 & E2 & E3).
    split; [lia|]. split; [lia|]. split.
    + unfold mi. rewrite E1, E2. subst t. lia.
    + split; [exact E3|]. intros; lia.
  - destruct e; try discriminate.
    apply IH in E; [|assumption|subst t; lia|lia].
    destruct E as (j & J1 & J2 & J3 & J4 & J5).
    exists (j + 1). split; [lia|]. split; [lia|]. split; [rewrite J3; subst t; lia|].
    split; [exact J4|]. intros j' Hj' k Hk.
    destruct (Z.eq_dec j' 1) as [->|X].
    + replace k with t by (subst t; lia). exact R.
    + apply (J5 (j' - 1)); [lia|]. rewrite Hk. subst t. lia.
  - discriminate.
Qed.

Lemma monthly_next_sound F r s : 1 <= r_interval r -> 1 <= s ->
  next_sound (monthday_on (r_interval r)) s (monthly_next F r).
Proof.
  intros Hi Hs cur c Hc P N.
  assert (H1 : 1 <= cur) by lia.
  pose proof (year_ge1 cur H1). pose proof (month_range cur H1).
  unfold monthly_next in N. apply monthly_loop_inv in N; try lia.
  destruct N as (j & J1 & J2 & J3 & J4 & J5). fold (mi cur) in J3.
  unfold monthday_on in P. rewrite !month_no_mi in P. rewrite andb_true_iff, Z.eqb_eq in P.
  destruct P as [V1 D1].
  assert (L : mi cur < mi c) by nia.
  split; [apply ord_lt_mi; lia|]. split.
  - unfold monthday_on. rewrite !month_no_mi, J4, D1, Z.eqb_refl, andb_true_r.
    apply every_spec in V1 as [q V1]; [|lia]. apply every_spec; [lia|]. exists (q + j). lia.
  - intros d Hd. destruct (monthday_on (r_interval r) s d) eqn:D; [exfalso|reflexivity].
    unfold monthday_on in D. rewrite !month_no_mi in D. rewrite andb_true_iff, Z.eqb_eq in D.
    destruct D as [V2 D2].
    assert (Hd1 : 1 <= d) by lia.
    assert (ML : mi cur < mi d).
    { pose proof (mi_mono cur d H1 ltac:(lia)).
      destruct (Z.eq_dec (mi cur) (mi d)) as [X|X]; [|lia].
      pose proof (ord_eq_civil cur d H1 Hd1 X ltac:(lia)). lia. }
    assert (MR : mi d < mi c).
    { pose proof (mi_mono d c Hd1 ltac:(lia)).
      destruct (Z.eq_dec (mi d) (mi c)) as [X|X]; [|lia].
      pose proof (ord_eq_civil d c Hd1 ltac:(lia) X ltac:(lia)). lia. }
    apply every_spec in V1 as [q1 V1]; [|lia]. apply every_spec in V2 as [q2 V2]; [|lia].
    assert (Q : 1 <= q2 - q1 < j) by nia.
    specialize (J5 (q2 - q1) Q (mi d)). fold (mi cur) in J5.
    specialize (J5 ltac:(lia)). destruct (mi_div d Hd1) as [E1 E2]. rewrite E1, E2 in J5.
    unfold date_replace in J5. rewrite D1, <- D2 in J5.
    pose proof (proj2 (year_le_iff d Hd1) ltac:(lia)).
    rewrite py_date_valid in J5; [discriminate| |apply ord_civil; assumption].
    pose proof (year_ge1 d Hd1). lia.
Qed.

Lemma sel_list_sel on r s e :
  filter (sel_ed on r (Some e) s) (days s e) = expected on r s e.
Proof.
  unfold expected. apply filter_ext_in. intros x Hx. apply in_days in Hx.
  unfold sel_ed, in_enddate. replace (x <=? e) with true by lia. apply andb_true_r.
Qed.

Lemma expected_eq on on' r s e l : (forall x, s <= x -> on s x = on' s x) ->
  l = filter (sel_ed on' r (Some e) s) (days s e) -> l = expected on r s e.
Proof.
  intros H ->. rewrite sel_list_sel. symmetry. now apply expected_ext.
Qed.

Lemma next_sound_ext on on' s next : (forall d, on s d = on' s d) ->
  next_sound on' s next -> next_sound on s next.
Proof.
  intros H N cur c H1 H2 H3. rewrite H in H2. destruct (N cur c H1 H2 H3) as (A & B & C).
  rewrite H. split; [assumption|]. split; [assumption|]. intros d Hd. rewrite H. now apply C.
Qed.

Lemma validate_inv r : valid_rule r ->
  1 <= r_interval r /\ (r_count r = None \/ r_until r = None)
  /\ (r_kind r = KMonthly -> r_monthly r = "monthday" \/ r_monthly r = "weekday" \/ r_monthly r = "lastweekday")%string
  /\ (r_kind r = KWeekly -> Forall (fun d => 0 <= d <= 6) (r_weekdays r))
  /\ Forall (fun v => v <> VOther) (r_exceptions r).
Proof.
  intros V.
  assert (B : basic_validate r = Ok tt).
  { unfold valid_rule, validate in V. destruct (r_kind r); try exact V;
      destruct (basic_validate r) as [[]|x|]; try discriminate; reflexivity. }
  unfold basic_validate in B.
  assert (BI : negb (1 <=? r_interval r) = false /\ forallb is_date_instance (r_exceptions r) = true
            /\ (r_count r = None \/ r_until r = None)).
  { destruct (r_count r), (r_until r); try discriminate;
    destruct (negb (1 <=? r_interval r)); try discriminate;
    destruct (forallb is_date_instance (r_exceptions r)); try discriminate; auto. }
  destruct BI as (B1 & B2 & B3). repeat split; auto; try lia.
  - intros K. unfold valid_rule, validate in V. rewrite K in V.
    destruct (basic_validate r); try discriminate. cbn [rbind] in V.
    unfold str_in in V. cbn [existsb] in V.
    destruct (String.eqb_spec (r_monthly r) "monthday"); [auto|].
    destruct (String.eqb_spec (r_monthly r) "weekday"); [auto|].
    destruct (String.eqb_spec (r_monthly r) "lastweekday"); [auto|]. discriminate.
  - intros K. unfold valid_rule, validate in V. rewrite K in V.
    destruct (basic_validate r); try discriminate. cbn [rbind] in V.
    destruct (forallb _ (r_weekdays r)) eqn:Fo; [|discriminate].
    rewrite forallb_forall in Fo. apply Forall_forall. intros x Hx. specialize (Fo x Hx). lia.
  - rewrite forallb_forall in B2. apply Forall_forall. intros x Hx ->. specialize (B2 _ Hx). discriminate.
Qed.

(** ** main statement *)
Lemma apply_sound F r dt e l : r_kind r <> KNo -> valid_rule r -> 1 <= dt_date dt ->
  apply F r dt (Some (VDate e)) = (l, GStop) -> l = expected (code_on r) r (dt_date dt) e.
Proof.
  intros K V Hs E. destruct (validate_inv r V) as (Hi & _ & HM & _).
  change (Some (VDate e)) with (option_map VDate (Some e)) in E.
  rewrite apply_unfold in E by assumption. set (s := dt_date dt) in *.
  assert (DAILY : (r_kind r = KDaily \/ r_kind r = KBasic) ->
     basic_loop F (basic_next r) r (Some e) s 0 = (l, GStop) -> l = expected (code_on r) r s e).
  { intros KD EE. assert (EQ : forall d, code_on r s d = every (r_interval r) s d)
      by (intros d; unfold code_on, on_day; destruct KD as [-> | ->]; reflexivity).
    apply (expected_eq _ (every (r_interval r))); [intros; apply EQ|].
    rewrite <- (rank_start (every (r_interval r)) s) in EE.
    apply basic_sound in EE; try assumption; try lia; try apply every_refl.
    now apply daily_next_sound. }
  destruct (r_kind r) eqn:KK; try congruence.
  - apply DAILY; auto.
  - apply DAILY; auto.
  - assert (EQ : forall d, code_on r s d = yearly_on (r_interval r) s d)
      by (intros d; unfold code_on, on_day; rewrite KK; reflexivity).
    apply (expected_eq _ (yearly_on (r_interval r))); [intros; apply EQ|].
    rewrite <- (rank_start (yearly_on (r_interval r)) s) in E.
    apply basic_sound in E; try assumption; try lia.
    + now apply yearly_next_sound.
    + unfold yearly_on. now rewrite every_refl, !Z.eqb_refl.
  - assert (EQ : forall d, code_on r s d = on_day r s d)
      by (intros d; unfold code_on; rewrite KK; reflexivity).
    apply (expected_eq _ (on_day r)); [intros; apply EQ|].
    rewrite <- (rank_start (on_day r) s) in E.
    apply weekly_sound in E; try assumption; lia.
  - destruct (HM eq_refl) as [M|[M|M]]; rewrite M in E; cbn [String.eqb Ascii.eqb Bool.eqb] in E.
    + assert (EQ : forall d, code_on r s d = monthday_on (r_interval r) s d)
        by (intros d; unfold code_on, on_day; rewrite KK, M; reflexivity).
      apply (expected_eq _ (monthday_on (r_interval r))); [intros; apply EQ|].
      rewrite <- (rank_start (monthday_on (r_interval r)) s) in E.
      apply basic_sound in E; try assumption; try lia.
      * now apply monthly_next_sound.
      * unfold monthday_on. now rewrite every_refl, !Z.eqb_refl.
    + set (on := index_on (r_interval r) (weekday s) 0 (nth_weekday s)).
      assert (EQ : forall d, s <= d -> code_on r s d = on s d).
      { intros d Hd. unfold code_on. rewrite KK, M. cbn [String.eqb Ascii.eqb Bool.eqb].
        now apply spill_weekday_on. }
      apply (expected_eq _ on); [exact EQ|].
      rewrite apply_weekday_eq in E by assumption.
      rewrite <- (rank_start on s) in E. rewrite (start_is_fw s Hs) in E at 6.
      pose proof (index_sound r e s (weekday s) (nth_weekday s + 1) 0 (nth_weekday s)
                   (index_args s Hs) Hi (weekday_range s) F (mi s) l) as SS. cbv zeta in SS.
      rewrite Z.add_0_r, <- start_is_fw in SS by assumption.
      rewrite <- start_is_fw in E by assumption.
      apply SS; try assumption; try lia; [now apply mi_ge12|apply every_refl].
    + set (on := index_on (r_interval r) (weekday s) 1 (- (nth_last_weekday s + 1))).
      assert (EQ : forall d, s <= d -> code_on r s d = on s d).
      { intros d Hd. unfold code_on. rewrite KK, M. cbn [String.eqb Ascii.eqb Bool.eqb].
        now apply spill_last_on. }
      apply (expected_eq _ on); [exact EQ|].
      rewrite apply_lastweekday_eq in E by assumption.
      rewrite <- (rank_start on s) in E.
      pose proof (index_sound r e s (weekday s) (- (nth_last_weekday s + 1)) 1 (- (nth_last_weekday s + 1))
                   (last_args s Hs) Hi (weekday_range s) F (mi s) l) as SS. cbv zeta in SS.
      rewrite <- start_is_fw_last in SS by assumption.
      apply SS; try assumption; try lia; [now apply mi_ge12|apply every_refl].
Qed.
