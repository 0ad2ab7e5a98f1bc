(** Expansions that raise: what they have yielded by then, and why they stop (C80). *)
From Verif Require Import Base PyDate DateFacts Recurrent SpecRecur RecurProofs RecurExact RecurMain RecurOrder RecurSound.
From Coq Require Import ZifyBool.
Ltac Zify.zify_post_hook ::= Z.div_mod_to_equations.
Local Opaque ord2ymd year_of month_of day_of ymd2ord days_in_month is_leap.

(** ** specification *)
(** the days at which a rule looks at its bounds: the designated ones, and for
    a weekly rule all of them *)
Definition looked_at (r : rule) (s d : Z) : Prop := r_kind r = KWeekly \/ code_on r s d = true.

(** no such day from [s] to [b] is cut off by end date, count or until *)
Definition all_wanted (r : rule) (ed : option Z) (s b : Z) : Prop :=
  forall d, s <= d <= b -> looked_at r s d -> over (code_on r) r ed s d = false.

(** the rule cannot step to a designated day after [b]: the calendar ends (for
    the last weekdays of a month, the code needs the first weekday of the next
    month), or, for a yearly rule, the day does not exist in the next year *)
Definition no_step (r : rule) (s b : Z) : Prop :=
  match r_kind r with
  | KYearly => s <= b /\ code_on r s b = true /\ forall d, 1 <= d <= MAXORD ->
      ~ (year_of d = year_of b + r_interval r /\ month_of d = month_of s /\ day_of d = day_of s)
  | KMonthly =>
      forall d, b < d -> code_on r s d = true ->
        MAXORD < if String.eqb (r_monthly r) "lastweekday" then d + 7 * (nth_last_weekday s + 1) else d
  | KWeekly => MAXORD <= b
  | _ => forall d, b < d -> code_on r s d = true -> MAXORD < d
  end.

(** ** the loops *)
Lemma over_back on r ed s a b : s <= a -> a <= b -> over on r ed s b = false -> over on r ed s a = false.
Proof.
  intros H1 H2 O. destruct (over on r ed s a) eqn:X; [|reflexivity]. rewrite (over_mono on r ed s a b) in O by assumption. discriminate.
Qed.

Lemma basic_raise on next r ed s x : until_is_date r -> next_sound on s next ->
  forall F cur l, s <= cur -> on s cur = true ->
  basic_loop F next r ed cur (rank on s cur) = (l, GRaise x) ->
  exists b, cur <= b /\ on s b = true /\ over on r ed s b = false /\ next b = Raise x
  /\ l = filter (sel_ed on r ed s) (days cur b).
Proof.
  intros U Hn F. induction F as [|F IH]; intros cur l Hc P E; [discriminate|].
  cbn [basic_loop] in E. rewrite stop_check_over in E by assumption.
  destruct (over on r ed s cur) eqn:O; [discriminate|].
  destruct (next cur) as [c|y|] eqn:N; try discriminate.
  - destruct (Hn _ _ Hc P N) as (C1 & C2 & C3).
    rewrite <- (rank_next on s cur c) in E by (assumption || lia).
    destruct (basic_loop F next r ed c (rank on s c)) as [l' f] eqn:B.
    assert (f = GRaise x /\ l = (if excepted r cur then [] else [cur]) ++ l') as [-> ->] by (split; congruence).
    destruct (IH c l' ltac:(lia) C2 B) as (b & B1 & B2 & B3 & B4 & ->).
    exists b. split; [lia|]. split; [exact B2|]. split; [exact B3|]. split; [exact B4|].
    rewrite (days_cons cur) by lia. cbn [filter]. rewrite sel_ed_go, P by assumption. rewrite excepted_is.
    rewrite (filter_days_skip _ (cur + 1) c b); [|lia|].
    + destruct (is_exception r cur); reflexivity.
    + intros d Hd. unfold sel_ed, selected. rewrite C3 by lia. reflexivity.
  - assert (y = x) by congruence. subst y. assert (l = if excepted r cur then [] else [cur]) by congruence. subst l.
    exists cur. split; [lia|]. split; [exact P|]. split; [exact O|]. split; [exact N|].
    rewrite (days_cons cur cur) by lia. rewrite days_nil by lia. cbn [filter]. rewrite sel_ed_go, P by assumption. rewrite excepted_is.
    destruct (is_exception r cur); reflexivity.
Qed.

Lemma weekly_raise r ed s x : r_kind r = KWeekly -> 1 <= r_interval r -> until_is_date r -> 1 <= s ->
  forall F cur l, s <= cur <= MAXORD ->
  weekly_loop F r (weekday s :: r_weekdays r) ed s cur (rank (on_day r) s cur) = (l, GRaise x) ->
  x = OverflowError /\ over (on_day r) r ed s MAXORD = false /\ l = filter (sel_ed (on_day r) r ed s) (days cur MAXORD).
Proof.
  intros K Hi U Hs F. induction F as [|F IH]; intros cur l Hc E; [discriminate|].
  cbn [weekly_loop] in E. rewrite stop_check_over in E by assumption.
  destruct (over (on_day r) r ed s cur) eqn:O; [discriminate|].
  rewrite weekspan_ok in E by lia. replace (r_interval r =? 0) with false in E by lia.
  assert (Hit : ((week_no cur - week_no s) mod r_interval r =? 0)
                && z_in (weekday cur) (weekday s :: r_weekdays r) = on_day r s cur).
  { unfold on_day. rewrite K. reflexivity. }
  rewrite Hit in E.
  assert (R : (if on_day r s cur then rank (on_day r) s cur + 1 else rank (on_day r) s cur)
              = rank (on_day r) s (cur + 1)).
  { rewrite rank_succ by lia. destruct (on_day r s cur); lia. }
  rewrite R in E. unfold date_add in E. destruct ((1 <=? cur + 1) && (cur + 1 <=? MAXORD)) eqn:B.
  - destruct (weekly_loop F r _ ed s (cur + 1) _) as [l' f] eqn:L.
    match type of E with (?o ++ _, _) = _ => assert (f = GRaise x /\ l = o ++ l') as [-> ->] by (split; congruence) end.
    destruct (IH (cur + 1) l' ltac:(lia) L) as (-> & B2 & ->). split; [reflexivity|]. split; [exact B2|].
    rewrite (days_cons cur) by lia. cbn [filter]. rewrite sel_ed_go by assumption. rewrite excepted_is.
    destruct (on_day r s cur && negb (is_exception r cur)); reflexivity.
  - assert (cur = MAXORD) by lia. subst cur. split; [congruence|]. split; [exact O|].
    rewrite (days_cons MAXORD MAXORD), days_nil by lia. cbn [filter]. rewrite sel_ed_go by assumption. rewrite <- excepted_is.
    destruct (on_day r s MAXORD && negb (excepted r MAXORD)); congruence.
Qed.

Lemma monthindex_raise y m i wd x : monthindex y m i wd = Raise x -> x = OverflowError \/ x = ValueError.
Proof.
  assert (PD : forall y m d z, py_date y m d = Raise z -> z = OverflowError \/ z = ValueError).
  { intros y0 m0 d z. unfold py_date. destruct (negb _); [intros X; left; congruence|]. destruct (valid_ymd _ _ _); [discriminate|].
    intros X. right. congruence. }
  assert (FF : forall n y m wd d z, find_first_day n y m wd d = Raise z -> z = OverflowError \/ z = ValueError).
  { induction n as [|n IH]; intros y0 m0 wd0 d z; cbn [find_first_day]; [discriminate|].
    destruct (py_date y0 m0 d) as [o|z'|] eqn:P; cbn [rbind]; [destruct (weekday o =? wd0); [discriminate|apply IH]| |discriminate].
    intros X. assert (z' = z) by congruence. subst. now apply PD in P. }
  unfold monthindex. destruct (if i <? 0 then _ else _) as [[y1 m1] i1].
  destruct (find_first_day 7 y1 m1 wd 1) as [d|z|] eqn:F1; cbn [rbind]; [|intros X; assert (z = x) by congruence; subst; now apply FF in F1|discriminate].
  destruct (py_date y1 m1 d) as [o|z|] eqn:P; cbn [rbind]; [|intros X; assert (z = x) by congruence; subst; now apply PD in P|discriminate].
  unfold date_add. destruct (_ && _); [discriminate|]. intros X. left. congruence.
Qed.

Lemma index_raise r ed s wd index a b x :
  let on := index_on (r_interval r) wd a b in
  (1 <= index /\ a = 0 /\ b = index - 1) \/ (index < 0 /\ a = 1 /\ b = index) ->
  until_is_date r -> 1 <= r_interval r -> 0 <= wd <= 6 -> 1 <= s ->
  forall F k l, let cur := fw (k + a) wd + 7 * b in
  12 <= k -> every (r_interval r) (mi s) k = true -> s <= cur ->
  index_loop F r ed wd index (k / 12) (k mod 12 + 1) (rank on s cur) = (l, GRaise x) ->
  exists k', k <= k' /\ let c := fw (k' + a) wd + 7 * b in
    cur <= c /\ (MAXORD < fw (k' + a) wd \/ MAXORD < c) /\ (x = OverflowError \/ x = ValueError)
    /\ l = filter (sel_ed on r ed s) (days cur (c - 1))
    /\ (forall d, cur <= d <= c - 1 -> on s d = true -> over on r ed s d = false).
Proof.
  intros on Hi U Hint Hw Hs F. induction F as [|F IH]; intros k l cur Hk E Hc EQ; [discriminate|].
  cbn [index_loop] in EQ.
  destruct (monthindex (k / 12) (k mod 12 + 1) index wd) as [y|y|] eqn:M; try discriminate.
  - apply (monthindex_inv k index wd a b) in M; try assumption. destruct M as (-> & _).
    fold cur in EQ. rewrite stop_check_over in EQ by assumption.
    destruct (over on r ed s cur) eqn:O; [discriminate|].
    replace (k / 12 * 12 + (k mod 12 + 1) + r_interval r - 1) with (k + r_interval r) in EQ by lia.
    set (c := fw (k + r_interval r + a) wd + 7 * b).
    assert (Pcur : on s cur = true) by (subst on cur; rewrite index_on_val by lia; exact E).
    assert (E' : every (r_interval r) (mi s) (k + r_interval r) = true) by (apply every_add; [lia|exact E]).
    assert (L : cur < c).
    { subst cur c. pose proof (fw_lt (k + a) (k + r_interval r + a) wd). lia. }
    assert (G : forall d, cur < d < c -> on s d = false).
    { intros d Hd. destruct (on s d) eqn:D; [exfalso|reflexivity].
      destruct (index_on_inv _ _ _ _ _ _ D) as (K1 & K2 & K3).
      set (k' := mi (d - 7 * b) - a) in *.
      assert (k < k').
      { destruct (Z_lt_le_dec k k') as [X|X]; [assumption|exfalso].
        destruct (Z.eq_dec k k') as [Y|Y]; [subst cur; rewrite Y in *; lia|].
        pose proof (fw_lt (k' + a) (k + a) wd). subst cur. lia. }
      pose proof (every_next (r_interval r) _ _ _ ltac:(lia) E K2 H) as L2.
      destruct (Z.eq_dec (k + r_interval r) k') as [Y|Y]; [subst c; rewrite Y in *; lia|].
      pose proof (fw_lt (k + r_interval r + a) (k' + a) wd). subst c. lia. }
    rewrite <- (rank_next on s cur c) in EQ by (assumption || lia).
    destruct (index_loop F r ed wd index _ _ (rank on s c)) as [l' f] eqn:B.
    assert (f = GRaise x /\ l = (if excepted r cur then [] else [cur]) ++ l') as [-> ->] by (split; congruence).
    apply (IH (k + r_interval r)) in B; [|lia|assumption|fold c; lia].
    destruct B as (k' & B1 & B2 & B3 & B4 & B5 & B6). fold c in B2, B5, B6. set (c' := fw (k' + a) wd + 7 * b) in *.
    exists k'. split; [lia|]. cbv zeta. fold c'. split; [lia|]. split; [exact B3|]. split; [exact B4|]. split.
    + rewrite (days_cons cur) by lia. cbn [filter].
      rewrite sel_ed_go, Pcur by assumption. rewrite excepted_is. rewrite B5.
      rewrite (filter_days_skip _ (cur + 1) c (c' - 1)); [|lia|].
      * destruct (is_exception r cur); reflexivity.
      * intros d Hd. unfold sel_ed, selected. rewrite G by lia. reflexivity.
    + intros d Hd D. destruct (Z.eq_dec d cur) as [->|]; [exact O|].
      destruct (Z_lt_le_dec d c) as [X|X]; [rewrite G in D by lia; discriminate|]. apply B6; [lia|exact D].
  - assert (y = x /\ l = []) as [-> ->] by (split; congruence).
    exists k. split; [lia|]. cbv zeta. fold cur. split; [lia|]. split.
    { destruct (Z_lt_le_dec MAXORD (fw (k + a) wd)); [now left|]. right.
      destruct (Z_lt_le_dec MAXORD cur); [assumption|exfalso].
      rewrite (monthindex_ok k index wd a b) in M; [discriminate|assumption..|fold cur; lia]. }
    split; [now apply monthindex_raise in M|]. split; [now rewrite days_nil by lia|]. intros d Hd. lia.
Qed.

Lemma monthly_loop_raise F i d x : forall y m, 1 <= i -> 1 <= y -> 1 <= m <= 12 -> 1 <= d ->
  monthly_next_loop F i d y m = Raise x ->
  x = OverflowError /\ forall j k, 1 <= j -> k = y * 12 + m - 1 + j * i ->
       k / 12 <= MAXYEAR -> forall o, date_replace d (k / 12) (k mod 12 + 1) <> Ok o.
Proof.
  induction F as [|F IH]; intros y m Hi Hy Hm Hd E; [discriminate|].
  cbn [monthly_next_loop] in E. set (t := y * 12 + m - 1 + i) in *.
  destruct (date_replace d (t / 12) (t mod 12 + 1)) as [z|e|] eqn:R; [discriminate| |discriminate].
  assert (C : (e = ValueError /\ monthly_next_loop F i d (t / 12) (t mod 12 + 1) = Raise x)
           \/ (e = OverflowError /\ x = e)).
  { unfold date_replace, py_date in R. destruct (negb _); [right|]; [assert (e = OverflowError) by congruence; subst e; split; congruence|].
    destruct (valid_ymd _ _ _); [discriminate|]. left. assert (e = ValueError) by congruence. subst e. auto. }
  destruct C as [(-> & C)|(-> & ->)].
  - apply IH in C; [|assumption|subst t; lia|lia|assumption]. destruct C as [C1 C2]. split; [exact C1|].
    intros j k Hj Hk HY o. destruct (Z.eq_dec j 1) as [->|X].
    + replace k with t by (subst t; lia). congruence.
    + apply (C2 (j - 1)); [lia| |exact HY]. rewrite Hk. subst t. lia.
  - split; [reflexivity|]. intros j k Hj Hk HY o.
    assert (t / 12 <= k / 12) by (apply Z.div_le_mono; [lia|subst t; nia]).
    unfold date_replace, py_date in R. pose proof (day_range d Hd). pose proof (dim_range (year_of d) (month_of d)).
    unfold c_int, INT_MIN, INT_MAX, MAXYEAR in *.
    replace (negb _) with false in R; [destruct (valid_ymd _ _ _); discriminate|]. subst t. lia.
Qed.

(** * C80: expansions that raise *)
Theorem C80_raises_exact : forall F r dt ed l x,
  r_kind r <> KNo -> valid_rule r -> until_is_date r -> 1 <= dt_date dt <= MAXORD ->
  apply F r dt (option_map VDate ed) = (l, GRaise x) ->
  exists b, dt_date dt - 1 <= b /\ l = expected (code_on r) r (dt_date dt) b
    /\ all_wanted r ed (dt_date dt) b /\ no_step r (dt_date dt) b
    /\ (x = OverflowError \/ x = ValueError).
Proof.
  intros F r dt ed l x K V U Hs E. destruct (validate_inv r V) as (Hi & _ & HM & _).
  rewrite apply_unfold in E by assumption. set (s := dt_date dt) in *.
  assert (FIN : forall on b, (forall d, s <= d -> code_on r s d = on s d) ->
     (forall d, s <= d <= b -> (r_kind r = KWeekly \/ on s d = true) -> over on r ed s d = false) ->
     l = filter (sel_ed on r ed s) (days s b) ->
     l = expected (code_on r) r s b /\ all_wanted r ed s b).
  { intros on b EQ W ->.
    assert (RK : forall d, rank (code_on r) s d = rank on s d).
    { intros d. unfold rank. f_equal. f_equal. apply filter_ext_in. intros y Hy. apply in_days in Hy. apply EQ. lia. }
    split.
    - unfold expected. apply filter_ext_in. intros d Hd. apply in_days in Hd. unfold sel_ed, selected. rewrite EQ by lia.
      unfold in_count. rewrite RK. destruct (on s d) eqn:D; [|reflexivity].
      pose proof (W d Hd (or_intror D)) as O. unfold over in O. destruct (in_enddate ed d); [apply andb_true_r|discriminate].
    - intros d Hd D. unfold looked_at in D. rewrite EQ in D by lia. pose proof (W d Hd D) as O. unfold over, in_count in *. now rewrite RK. }
  assert (BASIC : forall on next, (forall d, s <= d -> code_on r s d = on s d) -> next_sound on s next -> on s s = true ->
     basic_loop F next r ed s 0 = (l, GRaise x) ->
     exists b, s <= b /\ on s b = true /\ next b = Raise x /\ l = expected (code_on r) r s b /\ all_wanted r ed s b).
  { intros on next EQ NS P B. rewrite <- (rank_start on s) in B.
    destruct (basic_raise on next r ed s x U NS F s l ltac:(lia) P B) as (b & B1 & B2 & B3 & B4 & B5).
    exists b. split; [exact B1|]. split; [exact B2|]. split; [exact B4|]. apply (FIN on); [exact EQ| |exact B5].
    intros d Hd _. apply (over_back _ _ _ _ d b); [lia|lia|exact B3]. }
  assert (DAILY : (r_kind r = KDaily \/ r_kind r = KBasic) ->
     basic_loop F (basic_next r) r ed s 0 = (l, GRaise x) ->
     exists b, s - 1 <= b /\ l = expected (code_on r) r s b /\ all_wanted r ed s b
       /\ (forall d, b < d -> code_on r s d = true -> MAXORD < d) /\ (x = OverflowError \/ x = ValueError)).
  { intros KD EE. assert (EQ : forall d, code_on r s d = every (r_interval r) s d)
      by (intros d; unfold code_on, on_day; destruct KD as [-> | ->]; reflexivity).
    destruct (BASIC (every (r_interval r)) (basic_next r)) as (b & B1 & B2 & B3 & B4 & B5); try assumption.
    { intros; apply EQ. } { now apply daily_next_sound. } { apply every_refl. }
    exists b. split; [lia|]. split; [exact B4|]. split; [exact B5|].
    unfold basic_next, date_add in B3. destruct (_ && _) eqn:Q; [discriminate|]. split; [|left; congruence].
    intros d Hd D. rewrite EQ in D. pose proof (every_next (r_interval r) s b d ltac:(lia) B2 D Hd). lia. }
  unfold no_step.
  destruct (r_kind r) eqn:KK; try congruence.
  - apply DAILY; auto.
  - apply DAILY; auto.
  - assert (EQ : forall d, code_on r s d = yearly_on (r_interval r) s d)
      by (intros d; unfold code_on, on_day; rewrite KK; reflexivity).
    destruct (BASIC (yearly_on (r_interval r)) (yearly_next r)) as (b & B1 & B2 & B3 & B4 & B5); try assumption.
    { intros; apply EQ. } { apply yearly_next_sound; lia. } { unfold yearly_on. now rewrite every_refl, !Z.eqb_refl. }
    exists b. split; [lia|]. split; [exact B4|]. split; [exact B5|].
    unfold yearly_next, date_replace in B3. split.
    + split; [exact B1|]. split; [now rewrite EQ|].
      intros d Hd (Y1 & Y2 & Y3). unfold yearly_on in B2. rewrite !andb_true_iff, !Z.eqb_eq in B2. destruct B2 as [[D1 M1] _].
      rewrite D1, M1, <- Y1, <- Y2, <- Y3 in B3. rewrite py_date_valid in B3; [discriminate| |apply ord_civil; lia].
      pose proof (year_ge1 d ltac:(lia)). split; [lia|]. apply year_le_iff; lia.
    + unfold py_date in B3. destruct (negb _); [left; congruence|]. destruct (valid_ymd _ _ _); [discriminate|right; congruence].
  - assert (EQ : forall d, code_on r s d = on_day r s d)
      by (intros d; unfold code_on; rewrite KK; reflexivity).
    rewrite <- (rank_start (on_day r) s) in E.
    apply weekly_raise in E; try assumption; try lia. destruct E as (-> & O & L).
    exists MAXORD. split; [lia|]. destruct (FIN (on_day r) MAXORD) as [A B]; [intros; apply EQ| |exact L|].
    { intros d Hd _. apply (over_back _ _ _ _ d MAXORD); [lia|lia|exact O]. }
    split; [exact A|]. split; [exact B|]. split; [lia|now left].
  - destruct (HM eq_refl) as [M|[M|M]]; rewrite M in E |- *; cbn [String.eqb Ascii.eqb Bool.eqb] in E |- *.
    + assert (EQ : forall d, code_on r s d = monthday_on (r_interval r) s d)
        by (intros d; unfold code_on, on_day; rewrite KK, M; reflexivity).
      destruct (BASIC (monthday_on (r_interval r)) (monthly_next F r)) as (b & B1 & B2 & B3 & B4 & B5); try assumption.
      { intros; apply EQ. } { apply monthly_next_sound; lia. } { unfold monthday_on. now rewrite every_refl, !Z.eqb_refl. }
      exists b. split; [lia|]. split; [exact B4|]. split; [exact B5|].
      assert (H1 : 1 <= b) by lia. pose proof (year_ge1 b H1). pose proof (month_range b H1).
      unfold monthly_next in B3. apply monthly_loop_raise in B3; try lia. destruct B3 as [-> B3]. split; [|now left].
      intros d Hd D. rewrite EQ in D. unfold monthday_on in B2, D. rewrite !month_no_mi in B2, D. rewrite andb_true_iff, Z.eqb_eq in B2, D.
      destruct B2 as [V1 D1]. destruct D as [V2 D2]. assert (Hd1 : 1 <= d) by lia.
      destruct (Z_lt_le_dec MAXORD d); [assumption|exfalso].
      assert (ML : mi b < mi d).
      { pose proof (mi_mono b d H1 ltac:(lia)). destruct (Z.eq_dec (mi b) (mi d)) as [X|X]; [|lia].
        pose proof (ord_eq_civil b d H1 Hd1 X ltac:(lia)). lia. }
      apply every_spec in V1 as [q1 V1]; [|lia]. apply every_spec in V2 as [q2 V2]; [|lia].
      destruct (mi_div d Hd1) as [E1 E2]. pose proof (proj2 (year_le_iff d Hd1) ltac:(lia)) as YD.
      apply (B3 (q2 - q1) (mi d)) with (o := ymd2ord (year_of d) (month_of d) (day_of d)).
      * assert (q1 < q2) by nia. lia.
      * fold (mi b). lia.
      * lia.
      * rewrite E1, E2. unfold date_replace. rewrite D1, <- D2. apply py_date_valid; [pose proof (year_ge1 d Hd1); lia|apply ord_civil; assumption].
    + set (on := index_on (r_interval r) (weekday s) 0 (nth_weekday s)).
      assert (EQ : forall d, s <= d -> code_on r s d = on s d).
      { intros d Hd. unfold code_on. rewrite KK, M. cbn [String.eqb Ascii.eqb Bool.eqb]. now apply spill_weekday_on. }
      rewrite apply_weekday_eq in E by lia. rewrite <- (rank_start on s) in E.
      pose proof (index_raise r ed s (weekday s) (nth_weekday s + 1) 0 (nth_weekday s) x
                   (index_args s ltac:(lia)) U Hi (weekday_range s) ltac:(lia) F (mi s) l) as SS. cbv zeta in SS.
      rewrite Z.add_0_r, <- start_is_fw in SS by lia.
      destruct SS as (k' & K1 & K2 & K3 & K4 & K5 & K6); [apply mi_ge12; lia|apply every_refl|lia|exact E|].
      set (c := fw (k' + 0) (weekday s) + 7 * nth_weekday s) in *.
      exists (c - 1). split; [lia|]. destruct (FIN on (c - 1)) as [A B]; [exact EQ|intros d Hd [X|X]; [congruence|exact (K6 d Hd X)]|exact K5|].
      split; [exact A|]. split; [exact B|]. split; [|exact K4]. intros d Hd D.
      pose proof (nth_range s ltac:(lia)). destruct K3; subst c; lia.
    + set (on := index_on (r_interval r) (weekday s) 1 (- (nth_last_weekday s + 1))).
      assert (EQ : forall d, s <= d -> code_on r s d = on s d).
      { intros d Hd. unfold code_on. rewrite KK, M. cbn [String.eqb Ascii.eqb Bool.eqb]. now apply spill_last_on; [lia|..]. }
      rewrite apply_lastweekday_eq in E by lia. rewrite <- (rank_start on s) in E.
      pose proof (index_raise r ed s (weekday s) (- (nth_last_weekday s + 1)) 1 (- (nth_last_weekday s + 1)) x
                   (last_args s ltac:(lia)) U Hi (weekday_range s) ltac:(lia) F (mi s) l) as SS. cbv zeta in SS.
      rewrite <- start_is_fw_last in SS by lia.
      destruct SS as (k' & K1 & K2 & K3 & K4 & K5 & K6); [apply mi_ge12; lia|apply every_refl|lia|exact E|].
      set (c := fw (k' + 1) (weekday s) + 7 * - (nth_last_weekday s + 1)) in *.
      exists (c - 1). split; [lia|]. destruct (FIN on (c - 1)) as [A B]; [exact EQ|intros d Hd [X|X]; [congruence|exact (K6 d Hd X)]|exact K5|].
      split; [exact A|]. split; [exact B|]. split; [|exact K4]. intros d Hd D.
      pose proof (nth_last_range s ltac:(lia)). destruct K3; subst c; lia.
Qed.
Print Assumptions C80_raises_exact.

(** ** the loops, when they finish *)
Lemma basic_stop on next r ed s : until_is_date r -> next_sound on s next ->
  (forall b c, s <= b -> on s b = true -> next b = Ok c -> c <= MAXORD) ->
  forall F cur l, s <= cur <= MAXORD -> on s cur = true ->
  basic_loop F next r ed cur (rank on s cur) = (l, GStop) ->
  exists c, cur <= c <= MAXORD /\ on s c = true /\ over on r ed s c = true
  /\ (forall d, cur <= d < c -> on s d = true -> over on r ed s d = false /\ exists n, next d = Ok n)
  /\ l = filter (sel_ed on r ed s) (days cur (c - 1)).
Proof.
  intros U Hn HM F. induction F as [|F IH]; intros cur l Hc P E; [discriminate|].
  cbn [basic_loop] in E. rewrite stop_check_over in E by assumption.
  destruct (over on r ed s cur) eqn:O.
  { exists cur. split; [lia|]. split; [exact P|]. split; [exact O|]. split; [intros; lia|]. rewrite days_nil by lia. cbn. congruence. }
  destruct (next cur) as [c|y|] eqn:N; try discriminate.
  destruct (Hn cur c ltac:(lia) P N) as (C1 & C2 & C3). pose proof (HM cur c ltac:(lia) P N) as CM.
  rewrite <- (rank_next on s cur c) in E by (assumption || lia).
  destruct (basic_loop F next r ed c (rank on s c)) as [l' f] eqn:B.
  assert (f = GStop /\ l = (if excepted r cur then [] else [cur]) ++ l') as [-> ->] by (split; congruence).
  destruct (IH c l' ltac:(lia) C2 B) as (b & B1 & B2 & B3 & B4 & ->).
  exists b. split; [lia|]. split; [exact B2|]. split; [exact B3|]. split.
  - intros d Hd D. destruct (Z.eq_dec d cur) as [->|X]; [split; [exact O|now exists c]|].
    destruct (Z_lt_le_dec d c); [rewrite C3 in D by lia; discriminate|]. apply B4; [lia|exact D].
  - rewrite (days_cons cur) by lia. cbn [filter]. rewrite sel_ed_go, P by assumption. rewrite excepted_is.
    rewrite (filter_days_skip _ (cur + 1) c (b - 1)); [|lia|].
    + destruct (is_exception r cur); reflexivity.
    + intros d Hd. unfold sel_ed, selected. rewrite C3 by lia. reflexivity.
Qed.

Lemma weekly_stop r ed s : r_kind r = KWeekly -> 1 <= r_interval r -> until_is_date r -> 1 <= s ->
  forall F cur l, s <= cur <= MAXORD ->
  weekly_loop F r (weekday s :: r_weekdays r) ed s cur (rank (on_day r) s cur) = (l, GStop) ->
  exists c, cur <= c <= MAXORD /\ over (on_day r) r ed s c = true
  /\ (forall d, cur <= d < c -> over (on_day r) r ed s d = false)
  /\ l = filter (sel_ed (on_day r) r ed s) (days cur (c - 1)).
Proof.
  intros K Hi U Hs F. induction F as [|F IH]; intros cur l Hc E; [discriminate|].
  cbn [weekly_loop] in E. rewrite stop_check_over in E by assumption.
  destruct (over (on_day r) r ed s cur) eqn:O.
  { exists cur. split; [lia|]. split; [exact O|]. split; [intros; lia|]. rewrite days_nil by lia. cbn. congruence. }
  rewrite weekspan_ok in E by lia. replace (r_interval r =? 0) with false in E by lia.
  assert (Hit : ((week_no cur - week_no s) mod r_interval r =? 0)
                && z_in (weekday cur) (weekday s :: r_weekdays r) = on_day r s cur).
  { unfold on_day. rewrite K. reflexivity. }
  rewrite Hit in E.
  assert (R : (if on_day r s cur then rank (on_day r) s cur + 1 else rank (on_day r) s cur)
              = rank (on_day r) s (cur + 1)).
  { rewrite rank_succ by lia. destruct (on_day r s cur); lia. }
  rewrite R in E. unfold date_add in E. destruct ((1 <=? cur + 1) && (cur + 1 <=? MAXORD)) eqn:B; [|discriminate].
  destruct (weekly_loop F r _ ed s (cur + 1) _) as [l' f] eqn:L.
  match type of E with (?o ++ _, _) = _ => assert (f = GStop /\ l = o ++ l') as [-> ->] by (split; congruence) end.
  destruct (IH (cur + 1) l' ltac:(lia) L) as (c & B1 & B2 & B3 & ->).
  exists c. split; [lia|]. split; [exact B2|]. split.
  - intros d Hd. destruct (Z.eq_dec d cur) as [->|]; [exact O|apply B3; lia].
  - rewrite (days_cons cur) by lia. cbn [filter]. rewrite sel_ed_go by assumption. rewrite excepted_is.
    destruct (on_day r s cur && negb (is_exception r cur)); reflexivity.
Qed.

Lemma fw_max k wd : 12 <= k -> k <= 12 * 9999 + 11 -> 0 <= wd <= 6 -> fw k wd <= MAXORD.
Proof.
  intros H1 H2 Hw. destruct (fw_props k wd H1 Hw) as (A & B & _).
  apply year_le_iff; [exact A|]. destruct (mi_div (fw k wd) A) as [E _]. rewrite B in E. unfold MAXYEAR. lia.
Qed.

Lemma index_stop r ed s wd index a b :
  let on := index_on (r_interval r) wd a b in
  (1 <= index /\ a = 0 /\ b = index - 1) \/ (index < 0 /\ a = 1 /\ b = index) ->
  until_is_date r -> 1 <= r_interval r -> 0 <= wd <= 6 -> 1 <= s ->
  forall F k l, let cur := fw (k + a) wd + 7 * b in
  12 <= k -> every (r_interval r) (mi s) k = true -> s <= cur ->
  index_loop F r ed wd index (k / 12) (k mod 12 + 1) (rank on s cur) = (l, GStop) ->
  exists k', k <= k' /\ let c := fw (k' + a) wd + 7 * b in
    cur <= c <= MAXORD /\ fw (k' + a) wd <= MAXORD /\ on s c = true /\ over on r ed s c = true
    /\ (forall d, cur <= d < c -> on s d = true -> over on r ed s d = false)
    /\ l = filter (sel_ed on r ed s) (days cur (c - 1)).
Proof.
  intros on Hi U Hint Hw Hs F. induction F as [|F IH]; intros k l cur Hk E Hc EQ; [discriminate|].
  cbn [index_loop] in EQ.
  destruct (monthindex (k / 12) (k mod 12 + 1) index wd) as [y|y|] eqn:M; try discriminate.
  apply (monthindex_inv k index wd a b) in M; try assumption. destruct M as (-> & MR).
  fold cur in EQ. rewrite stop_check_over in EQ by assumption.
  assert (Pcur : on s cur = true) by (subst on cur; rewrite index_on_val by lia; exact E).
  destruct (over on r ed s cur) eqn:O.
  { exists k. split; [lia|]. cbv zeta. fold cur. split; [lia|]. split; [apply fw_max; lia|]. split; [exact Pcur|]. split; [exact O|].
    split; [intros; lia|]. rewrite days_nil by lia. cbn. congruence. }
  replace (k / 12 * 12 + (k mod 12 + 1) + r_interval r - 1) with (k + r_interval r) in EQ by lia.
  set (c := fw (k + r_interval r + a) wd + 7 * b).
  assert (E' : every (r_interval r) (mi s) (k + r_interval r) = true) by (apply every_add; [lia|exact E]).
  assert (L : cur < c).
  { subst cur c. pose proof (fw_lt (k + a) (k + r_interval r + a) wd). lia. }
  assert (G : forall d, cur < d < c -> on s d = false).
  { intros d Hd. destruct (on s d) eqn:D; [exfalso|reflexivity].
    destruct (index_on_inv _ _ _ _ _ _ D) as (K1 & K2 & K3).
    set (k' := mi (d - 7 * b) - a) in *.
    assert (k < k').
    { destruct (Z_lt_le_dec k k') as [X|X]; [assumption|exfalso].
      destruct (Z.eq_dec k k') as [Y|Y]; [subst cur; rewrite Y in *; lia|].
      pose proof (fw_lt (k' + a) (k + a) wd). subst cur. lia. }
    pose proof (every_next (r_interval r) _ _ _ ltac:(lia) E K2 H) as L2.
    destruct (Z.eq_dec (k + r_interval r) k') as [Y|Y]; [subst c; rewrite Y in *; lia|].
    pose proof (fw_lt (k + r_interval r + a) (k' + a) wd). subst c. lia. }
  rewrite <- (rank_next on s cur c) in EQ by (assumption || lia).
  destruct (index_loop F r ed wd index _ _ (rank on s c)) as [l' f] eqn:B.
  assert (f = GStop /\ l = (if excepted r cur then [] else [cur]) ++ l') as [-> ->] by (split; congruence).
  apply (IH (k + r_interval r)) in B; [|lia|assumption|fold c; lia].
  destruct B as (k' & B1 & B2 & B3 & B4 & B5 & B6 & B7). fold c in B2, B6, B7. set (c' := fw (k' + a) wd + 7 * b) in *.
  exists k'. split; [lia|]. cbv zeta. fold c'. split; [lia|]. split; [exact B3|]. split; [exact B4|]. split; [exact B5|]. split.
  - intros d Hd D. destruct (Z.eq_dec d cur) as [->|]; [exact O|].
    destruct (Z_lt_le_dec d c) as [X|X]; [rewrite G in D by lia; discriminate|]. apply B6; [lia|exact D].
  - rewrite (days_cons cur) by lia. cbn [filter].
    rewrite sel_ed_go, Pcur by assumption. rewrite excepted_is. rewrite B7.
    rewrite (filter_days_skip _ (cur + 1) c (c' - 1)); [|lia|].
    + destruct (is_exception r cur); reflexivity.
    + intros d Hd. unfold sel_ed, selected. rewrite G by lia. reflexivity.
Qed.

(** * C80: expansions that finish *)
Theorem C80_finishes_exact : forall F r dt ed l,
  r_kind r <> KNo -> valid_rule r -> until_is_date r -> 1 <= dt_date dt <= MAXORD ->
  apply F r dt (option_map VDate ed) = (l, GStop) ->
  exists c, dt_date dt <= c <= MAXORD /\ looked_at r (dt_date dt) c
    /\ over (code_on r) r ed (dt_date dt) c = true /\ all_wanted r ed (dt_date dt) (c - 1)
    /\ l = expected (code_on r) r (dt_date dt) (c - 1)
    /\ (forall b, b < c -> ~ no_step r (dt_date dt) b).
Proof.
  intros F r dt ed l K V U Hs E. destruct (validate_inv r V) as (Hi & _ & HM & _).
  rewrite apply_unfold in E by assumption. set (s := dt_date dt) in *.
  assert (FIN : forall on c, (forall d, s <= d -> code_on r s d = on s d) -> s <= c ->
     (r_kind r = KWeekly \/ on s c = true) -> over on r ed s c = true ->
     (forall d, s <= d < c -> (r_kind r = KWeekly \/ on s d = true) -> over on r ed s d = false) ->
     l = filter (sel_ed on r ed s) (days s (c - 1)) ->
     looked_at r s c /\ over (code_on r) r ed s c = true /\ all_wanted r ed s (c - 1)
     /\ l = expected (code_on r) r s (c - 1)).
  { intros on c EQ Hc LA OC W ->.
    assert (RK : forall d, rank (code_on r) s d = rank on s d).
    { intros d. unfold rank. f_equal. f_equal. apply filter_ext_in. intros y Hy. apply in_days in Hy. apply EQ. lia. }
    split; [unfold looked_at; now rewrite EQ|].
    split; [unfold over, in_count in *; now rewrite RK|]. split.
    - intros d Hd D. unfold looked_at in D. rewrite EQ in D by lia.
      pose proof (W d ltac:(lia) D) as O. unfold over, in_count in *. now rewrite RK.
    - unfold expected. apply filter_ext_in. intros d Hd. apply in_days in Hd. unfold sel_ed, selected. rewrite EQ by lia.
      unfold in_count. rewrite RK. destruct (on s d) eqn:D; [|reflexivity].
      pose proof (W d ltac:(lia) (or_intror D)) as O. unfold over in O. destruct (in_enddate ed d); [apply andb_true_r|discriminate]. }
  assert (BASIC : forall on next, r_kind r <> KWeekly -> (forall d, s <= d -> code_on r s d = on s d) -> next_sound on s next -> on s s = true ->
     (forall b c, s <= b -> on s b = true -> next b = Ok c -> c <= MAXORD) ->
     basic_loop F next r ed s 0 = (l, GStop) ->
     exists c, s <= c <= MAXORD /\ on s c = true /\ (forall d, s <= d < c -> on s d = true -> exists n, next d = Ok n)
     /\ looked_at r s c /\ over (code_on r) r ed s c = true /\ all_wanted r ed s (c - 1)
     /\ l = expected (code_on r) r s (c - 1)).
  { intros on next KW EQ NS P NM B. rewrite <- (rank_start on s) in B.
    destruct (basic_stop on next r ed s U NS NM F s l ltac:(lia) P B) as (c & B1 & B2 & B3 & B4 & B5).
    exists c. split; [exact B1|]. split; [exact B2|]. split; [intros d Hd D; now apply (B4 d)|].
    apply (FIN on); try assumption; [lia|now right|]. intros d Hd [X|X]; [congruence|now apply B4]. }
  assert (DAILY : (r_kind r = KDaily \/ r_kind r = KBasic) ->
     basic_loop F (basic_next r) r ed s 0 = (l, GStop) ->
     exists c, s <= c <= MAXORD /\ looked_at r s c /\ over (code_on r) r ed s c = true /\ all_wanted r ed s (c - 1)
       /\ l = expected (code_on r) r s (c - 1)
       /\ (forall b, b < c -> ~ (forall d, b < d -> code_on r s d = true -> MAXORD < d))).
  { intros KD EE. assert (EQ : forall d, code_on r s d = every (r_interval r) s d)
      by (intros d; unfold code_on, on_day; destruct KD as [-> | ->]; reflexivity).
    destruct (BASIC (every (r_interval r)) (basic_next r)) as (c & B1 & B2 & _ & B3 & B4 & B5 & B6); try assumption.
    { destruct KD; congruence. } { intros; apply EQ. } { now apply daily_next_sound. } { apply every_refl. }
    { intros b c _ _ N. unfold basic_next, date_add in N. destruct (_ && _) eqn:Q; [|discriminate].
      assert (c = b + r_interval r) by congruence. lia. }
    exists c. split; [exact B1|]. split; [exact B3|]. split; [exact B4|]. split; [exact B5|]. split; [exact B6|].
    intros b Hb X. specialize (X c Hb). rewrite EQ in X. specialize (X B2). lia. }
  unfold no_step.
  destruct (r_kind r) eqn:KK; try congruence.
  - apply DAILY; auto.
  - apply DAILY; auto.
  - assert (EQ : forall d, code_on r s d = yearly_on (r_interval r) s d)
      by (intros d; unfold code_on, on_day; rewrite KK; reflexivity).
    destruct (BASIC (yearly_on (r_interval r)) (yearly_next r)) as (c & B1 & B2 & BN & B3 & B4 & B5 & B6); try assumption.
    { congruence. } { intros; apply EQ. } { apply yearly_next_sound; lia. } { unfold yearly_on. now rewrite every_refl, !Z.eqb_refl. }
    { intros b c _ _ N. unfold yearly_next, date_replace in N. apply py_date_ok in N. lia. }
    exists c. split; [exact B1|]. split; [exact B3|]. split; [exact B4|]. split; [exact B5|]. split; [exact B6|].
    intros b Hb (X & D & ND). rewrite EQ in D.
    destruct (BN b ltac:(lia) D) as [n N]. unfold yearly_next, date_replace in N. apply py_date_ok in N.
    destruct N as (_ & _ & _ & N1 & N2 & N3 & N4). apply (ND n N1).
    unfold yearly_on in D. rewrite !andb_true_iff, !Z.eqb_eq in D. destruct D as [[D1 M1] _]. split; [exact N2|]. split; congruence.
  - assert (EQ : forall d, code_on r s d = on_day r s d)
      by (intros d; unfold code_on; rewrite KK; reflexivity).
    rewrite <- (rank_start (on_day r) s) in E.
    apply weekly_stop in E; try assumption; try lia. destruct E as (c & C1 & C2 & C3 & C4).
    exists c. split; [exact C1|].
    destruct (FIN (on_day r) c) as (A1 & A2 & A3 & A4); [intros; apply EQ|lia|now left|exact C2|intros d Hd _; now apply C3|exact C4|].
    split; [exact A1|]. split; [exact A2|]. split; [exact A3|]. split; [exact A4|]. intros b Hb. lia.
  - destruct (HM eq_refl) as [M|[M|M]]; rewrite M in E |- *; cbn [String.eqb Ascii.eqb Bool.eqb] in E |- *.
    + assert (EQ : forall d, code_on r s d = monthday_on (r_interval r) s d)
        by (intros d; unfold code_on, on_day; rewrite KK, M; reflexivity).
      destruct (BASIC (monthday_on (r_interval r)) (monthly_next F r)) as (c & B1 & B2 & _ & B3 & B4 & B5 & B6); try assumption.
      { congruence. } { intros; apply EQ. } { apply monthly_next_sound; lia. } { unfold monthday_on. now rewrite every_refl, !Z.eqb_refl. }
      { intros b c Hb _ N. unfold monthly_next in N. pose proof (year_ge1 b ltac:(lia)). pose proof (month_range b ltac:(lia)).
        apply monthly_loop_inv in N; try lia. destruct N as (j & _ & N & _). lia. }
      exists c. split; [exact B1|]. split; [exact B3|]. split; [exact B4|]. split; [exact B5|]. split; [exact B6|].
      intros b Hb X. specialize (X c Hb). rewrite EQ in X. specialize (X B2). lia.
    + set (on := index_on (r_interval r) (weekday s) 0 (nth_weekday s)).
      assert (EQ : forall d, s <= d -> code_on r s d = on s d).
      { intros d Hd. unfold code_on. rewrite KK, M. cbn [String.eqb Ascii.eqb Bool.eqb]. now apply spill_weekday_on. }
      rewrite apply_weekday_eq in E by lia. rewrite <- (rank_start on s) in E.
      pose proof (index_stop r ed s (weekday s) (nth_weekday s + 1) 0 (nth_weekday s)
                   (index_args s ltac:(lia)) U Hi (weekday_range s) ltac:(lia) F (mi s) l) as SS. cbv zeta in SS.
      rewrite Z.add_0_r, <- start_is_fw in SS by lia.
      destruct SS as (k' & K1 & K2 & K3 & K4 & K5 & K6 & K7); [apply mi_ge12; lia|apply every_refl|lia|exact E|].
      set (c := fw (k' + 0) (weekday s) + 7 * nth_weekday s) in *.
      exists c. split; [exact K2|].
      destruct (FIN on c) as (A1 & A2 & A3 & A4); [exact EQ|lia|now right|exact K5|intros d Hd [X|X]; [congruence|exact (K6 d Hd X)]|exact K7|].
      split; [exact A1|]. split; [exact A2|]. split; [exact A3|]. split; [exact A4|]. intros b Hb X.
      specialize (X c Hb). rewrite EQ in X by lia. specialize (X K4). lia.
    + set (on := index_on (r_interval r) (weekday s) 1 (- (nth_last_weekday s + 1))).
      assert (EQ : forall d, s <= d -> code_on r s d = on s d).
      { intros d Hd. unfold code_on. rewrite KK, M. cbn [String.eqb Ascii.eqb Bool.eqb]. now apply spill_last_on; [lia|..]. }
      rewrite apply_lastweekday_eq in E by lia. rewrite <- (rank_start on s) in E.
      pose proof (index_stop r ed s (weekday s) (- (nth_last_weekday s + 1)) 1 (- (nth_last_weekday s + 1))
                   (last_args s ltac:(lia)) U Hi (weekday_range s) ltac:(lia) F (mi s) l) as SS. cbv zeta in SS.
      rewrite <- start_is_fw_last in SS by lia.
      destruct SS as (k' & K1 & K2 & K3 & K4 & K5 & K6 & K7); [apply mi_ge12; lia|apply every_refl|lia|exact E|].
      set (c := fw (k' + 1) (weekday s) + 7 * - (nth_last_weekday s + 1)) in *.
      exists c. split; [exact K2|].
      destruct (FIN on c) as (A1 & A2 & A3 & A4); [exact EQ|lia|now right|exact K5|intros d Hd [X|X]; [congruence|exact (K6 d Hd X)]|exact K7|].
      split; [exact A1|]. split; [exact A2|]. split; [exact A3|]. split; [exact A4|]. intros b Hb X.
      specialize (X c Hb). rewrite EQ in X by lia. specialize (X K4). subst c. lia.
Qed.
Print Assumptions C80_finishes_exact.

(** ** every expansion: it finishes with the expected days, or raises after
    having yielded the expected days; which of the two is decided by the rule's
    days and the calendar alone *)
Theorem C80_every_expansion : forall r dt ed,
  r_kind r <> KNo -> valid_rule r -> until_is_date r -> 1 <= dt_date dt <= MAXORD ->
  exists N l f, (forall F, (N <= F)%nat -> apply F r dt (option_map VDate ed) = (l, f))
  /\ ((f = GStop /\ exists c, dt_date dt <= c <= MAXORD /\ looked_at r (dt_date dt) c
        /\ over (code_on r) r ed (dt_date dt) c = true /\ all_wanted r ed (dt_date dt) (c - 1)
        /\ l = expected (code_on r) r (dt_date dt) (c - 1))
      \/ ((f = GRaise OverflowError \/ f = GRaise ValueError)
        /\ exists b, dt_date dt - 1 <= b /\ all_wanted r ed (dt_date dt) b /\ no_step r (dt_date dt) b
        /\ l = expected (code_on r) r (dt_date dt) b)).
Proof.
  intros r dt ed K V U Hs.
  destruct (apply_outcome r dt (option_map VDate ed) (proj1 (validate_inv r V)) Hs) as (N & l & f & NM & H).
  exists N, l, f. split; [exact H|]. specialize (H N (le_n N)). destruct f as [|x|]; try congruence.
  - left. split; [reflexivity|]. destruct (C80_finishes_exact _ _ _ _ _ K V U Hs H) as (c & A & B & C & D & E & _).
    exists c. auto.
  - right. destruct (C80_raises_exact _ _ _ _ _ _ K V U Hs H) as (b & A & B & C & D & E).
    split; [destruct E as [-> | ->]; auto|]. exists b. auto.
Qed.
Print Assumptions C80_every_expansion.

Theorem C80_raises_iff : forall r dt ed,
  r_kind r <> KNo -> valid_rule r -> until_is_date r -> 1 <= dt_date dt <= MAXORD ->
  (exists F l x, apply F r dt (option_map VDate ed) = (l, GRaise x))
  <-> exists b, dt_date dt - 1 <= b /\ all_wanted r ed (dt_date dt) b /\ no_step r (dt_date dt) b.
Proof.
  intros r dt ed K V U Hs. split.
  - intros (F & l & x & E). destruct (C80_raises_exact _ _ _ _ _ _ K V U Hs E) as (b & A & _ & B & C & _). exists b. auto.
  - intros (b & Hb & W & S).
    destruct (apply_outcome r dt (option_map VDate ed) (proj1 (validate_inv r V)) Hs) as (N & l & f & NM & H).
    specialize (H N (le_n N)). destruct f as [|x|]; try congruence; [exfalso|now exists N, l, x].
    destruct (C80_finishes_exact _ _ _ _ _ K V U Hs H) as (c & A & B & C & D & _ & G).
    destruct (Z_lt_le_dec b c) as [X|X]; [|rewrite (W c) in C by (assumption || lia); discriminate].
    exact (G b X S).
Qed.
Print Assumptions C80_raises_iff.

(** Cases: a yearly rule of 29 February 2024 raises after its first day; one
    with INTERVAL=4 goes on until 2096 and raises there, as 2100 has no such
    day (an end date in between does not help: the next day is computed before
    it is compared); a daily rule raises after 9999-12-31; a weekly rule whose count is used up finishes. *)
Example C80_case :
  let y n := mkRule KYearly n None None [] [] "monthday"%string in
  let f29 := combine (ymd2ord 2024 2 29) 0 in
  let last := combine (ymd2ord 9999 12 30) 0 in
  valid_rule (y 4) /\ until_is_date (y 4) /\ 1 <= dt_date f29 <= MAXORD
  /\ apply 100 (y 1) f29 (Some (VDate (ymd2ord 2024 3 1))) = ([ymd2ord 2024 2 29], GRaise ValueError)
  /\ List.length (fst (apply 100 (y 4) f29 None)) = 19%nat
  /\ snd (apply 100 (y 4) f29 None) = GRaise ValueError
  /\ apply 100 (mkRule KDaily 1 None None [] [] "monthday"%string) last None
     = ([ymd2ord 9999 12 30; ymd2ord 9999 12 31], GRaise OverflowError)
  /\ apply 100 (mkRule KWeekly 1 (Some 2) None [] [] "monthday"%string) f29 None
     = ([ymd2ord 2024 2 29; ymd2ord 2024 3 7], GStop)
  /\ apply 100 (mkRule KMonthly 1 None None [] [] "lastweekday"%string) (combine (ymd2ord 9999 11 30) 0) None
     = ([ymd2ord 9999 11 30], GRaise ValueError).
Proof. vm_compute. intuition congruence. Qed.
