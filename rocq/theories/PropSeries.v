(** Property theorems C130-C132: splitting a series, different rules for the same
    days, and what changing one argument of a rule does to its dates. *)
From Verif Require Import Base PyDate DateFacts Recurrent SpecRecur RecurProofs RecurExact RecurMain RecurOrder RecurSound RecurMisc CalTime Event.
From Coq Require Import ZifyBool.
Ltac Zify.zify_post_hook ::= Z.div_mod_to_equations.
Local Opaque ord2ymd year_of month_of day_of ymd2ord days_in_month is_leap.

(** ** the second part of a series starts where the first one stops *)

(** Does a day [d] of the series play the same part in it as the start [s]?  A
    weekly rule repeats on its start's weekday even if that is not among the
    weekdays given; a fifth weekday of a month spills into the next one. *)
Definition same_part (r : rule) (s d : Z) : Prop :=
  match r_kind r with
  | KWeekly => In (weekday s) (r_weekdays r) \/ weekday d = weekday s
  | KMonthly => (r_monthly r = "weekday"%string -> nth_weekday d = nth_weekday s)
                /\ (r_monthly r = "lastweekday"%string -> nth_last_weekday d = nth_last_weekday s)
  | _ => True
  end.

Lemma every_restart n a b x : 0 < n -> every n a b = true -> every n b x = every n a x.
Proof.
  intros Hn H. apply every_spec in H as [k ->]; [|exact Hn]. apply Bool.eq_iff_eq_true. rewrite !every_spec by exact Hn.
  split; intros [j ->]; [exists (k + j) | exists (j - k)]; lia.
Qed.

Lemma mi_front d : 1 <= d -> mi (d - 7 * nth_weekday d) = mi d.
Proof.
  intros H. pose proof (start_is_fw d H) as E. pose proof (mi_ge12 d H) as M.
  replace (d - 7 * nth_weekday d) with (fw (mi d) (weekday d)) by lia. apply fw_props; [lia|apply weekday_range].
Qed.
Lemma mi_back d : 1 <= d -> mi (d + 7 * (nth_last_weekday d + 1)) = mi d + 1.
Proof.
  intros H. pose proof (start_is_fw_last d H) as E. pose proof (mi_ge12 d H) as M.
  replace (d + 7 * (nth_last_weekday d + 1)) with (fw (mi d + 1) (weekday d)) by lia. apply fw_props; [lia|apply weekday_range].
Qed.

Lemma code_on_restart r s d x : valid_rule r -> r_kind r <> KNo -> 1 <= s <= d -> d <= x -> same_part r s d ->
  code_on r s d = true -> code_on r d x = code_on r s x.
Proof.
  intros V K Hs Hx SP On. destruct (validate_inv r V) as (Hi & _ & HM & _). unfold code_on, same_part in *.
  destruct (r_kind r) eqn:KK; try congruence; unfold on_day in *; rewrite ?KK in *.
  - now apply every_restart; [lia|].
  - now apply every_restart; [lia|].
  - rewrite !andb_true_iff, !Z.eqb_eq in On. destruct On as [[-> ->] On]. now rewrite (every_restart (r_interval r) _ _ (year_of x) ltac:(lia) On).
  - apply andb_true_iff in On as [O1 O2]. rewrite (every_restart (r_interval r) _ _ (week_no x) ltac:(lia) O1). f_equal.
    apply orb_true_iff in O2. rewrite Z.eqb_eq in O2. unfold z_in in *.
    destruct SP as [SP | ->]; [|reflexivity].
    assert (A : existsb (Z.eqb (weekday d)) (r_weekdays r) = true).
    { destruct O2 as [-> | O2]; [|exact O2]. apply existsb_exists. exists (weekday s). split; [exact SP|lia]. }
    assert (B : existsb (Z.eqb (weekday s)) (r_weekdays r) = true) by (apply existsb_exists; exists (weekday s); split; [exact SP|lia]).
    assert (A' : weekday x = weekday d -> existsb (Z.eqb (weekday x)) (r_weekdays r) = true) by (intros ->; exact A).
    assert (B' : weekday x = weekday s -> existsb (Z.eqb (weekday x)) (r_weekdays r) = true) by (intros ->; exact B).
    destruct (existsb (Z.eqb (weekday x)) (r_weekdays r)); [now rewrite !orb_true_r|].
    destruct (Z.eqb_spec (weekday x) (weekday d)) as [E|]; [discriminate (A' E)|].
    destruct (Z.eqb_spec (weekday x) (weekday s)) as [E|]; [discriminate (B' E)|reflexivity].
  - destruct SP as [S1 S2]. destruct (HM eq_refl) as [M | [M | M]]; rewrite M in *; cbn [String.eqb Ascii.eqb Bool.eqb] in *.
    + apply andb_true_iff in On as [O1 O2]. apply Z.eqb_eq in O2. rewrite (every_restart (r_interval r) _ _ (month_no x) ltac:(lia) O1). now rewrite O2.
    + unfold on_day_spill in *. rewrite M in *. cbn [String.eqb Ascii.eqb Bool.eqb] in *. rewrite (S1 eq_refl).
      rewrite !andb_true_iff, Z.eqb_eq in On. destruct On as [[[W _] _] O1]. rewrite W.
      rewrite <- (S1 eq_refl) in O1. rewrite !month_no_mi, mi_front in O1 by lia. rewrite !month_no_mi.
      now rewrite (every_restart (r_interval r) _ _ _ ltac:(lia) O1).
    + unfold on_day_spill in *. rewrite M in *. cbn [String.eqb Ascii.eqb Bool.eqb] in *. rewrite (S2 eq_refl).
      rewrite !andb_true_iff, Z.eqb_eq in On. destruct On as [[W _] O1]. rewrite W.
      rewrite <- (S2 eq_refl) in O1. rewrite !month_no_mi, mi_back in O1 by lia. rewrite !month_no_mi.
      replace (mi d + 1 - 1) with (mi d) in O1 by lia. now rewrite (every_restart (r_interval r) _ _ _ ltac:(lia) O1).
Qed.

(** what designates days does not depend on count, until and exceptions *)
Lemma replace_inv r c u x r' : replace r None c u x None None = Ok r' ->
  valid_rule r' /\ r_kind r' = r_kind r /\ (forall s d, code_on r' s d = code_on r s d)
  /\ r_count r' = match c with Some c' => c' | None => r_count r end
  /\ r_until r' = match u with Some u' => u' | None => r_until r end
  /\ r_exceptions r' = match x with Some x' => x' | None => r_exceptions r end.
Proof.
  unfold replace, mk_rule. intros H. destruct (validate _) as [[]| |] eqn:V; try discriminate. cbn [rbind] in H. injection H as <-.
  split; [exact V|]. cbn [r_kind r_count r_until r_exceptions]. split; [reflexivity|]. split; [|repeat split].
  intros s d. unfold code_on, on_day, on_day_spill. cbn [r_kind r_interval r_weekdays r_monthly]. now destruct (r_kind r).
Qed.

Lemma rank_split on s d x : s <= d <= x ->
  rank on s x = rank on s d + Z.of_nat (List.length (filter (on s) (days d (x - 1)))).
Proof.
  intros H. unfold rank. rewrite (days_split s (d - 1) (x - 1)) by lia. replace (d - 1 + 1) with d by lia.
  rewrite filter_app, app_length. lia.
Qed.

Lemma mk_rule_ok k i c u x w m r : mk_rule k i c u x w m = Ok r -> valid_rule r.
Proof. unfold mk_rule. intros H. destruct (validate _) as [[]| |] eqn:V; try discriminate. cbn in H. injection H as <-. exact V. Qed.

(** * C130 the two parts of a series cut at one of its dates make up the series *)
Theorem C130_split : forall F F0 F1 F2 r dt dt2 e d l l0 l1 l2 r0 r1 r2,
  valid_rule r -> r_kind r <> KNo -> 1 <= dt_date dt ->
  apply F r dt (Some (VDate e)) = (l, GStop) ->
  In d l -> same_part r (dt_date dt) d ->
  (* until the day before *)
  replace r None (Some None) (Some (Some (VDate (d - 1)))) None None None = Ok r1 ->
  apply F1 r1 dt (Some (VDate e)) = (l1, GStop) ->
  (* repetitions used up, exceptions included *)
  replace r1 None None None (Some []) None None = Ok r0 ->
  apply F0 r0 dt (Some (VDate e)) = (l0, GStop) ->
  (* the rest, from that date on *)
  dt_date dt2 = d ->
  replace r None (Some (option_map (fun c => c - Z.of_nat (List.length l0)) (r_count r))) None None None None = Ok r2 ->
  apply F2 r2 dt2 (Some (VDate e)) = (l2, GStop) ->
  l = l1 ++ l2.
Proof.
  intros F F0 F1 F2 r dt dt2 e d l l0 l1 l2 r0 r1 r2 V K Hs A In_d SP R1 A1 R0 A0 D2 R2 A2.
  apply replace_inv in R1 as (V1 & K1 & C1 & N1 & U1 & X1). apply replace_inv in R0 as (V0 & K0 & C0 & N0 & U0 & X0).
  apply replace_inv in R2 as (V2 & K2 & C2 & N2 & U2 & X2).
  apply apply_sound in A; [|assumption..]. apply apply_sound in A1; [|congruence|assumption..]. apply apply_sound in A0; [|congruence|assumption..].
  set (s := dt_date dt) in *. subst l. apply filter_In in In_d as [Hd Sel]. apply in_days in Hd.
  apply apply_sound in A2; [|congruence|assumption|lia]. rewrite D2 in A2. clear D2 dt2.
  unfold selected in Sel. rewrite !andb_true_iff in Sel. destruct Sel as [[[On Cn] Un] _].
  assert (L0 : Z.of_nat (List.length l0) = rank (code_on r) s d).
  { subst l0. unfold expected. rewrite (days_split s (d - 1) e) by lia. rewrite filter_app, (filter_none _ (days (d - 1 + 1) e)).
    - rewrite app_nil_r. unfold rank. do 2 f_equal. apply filter_ext_in. intros x Hx. apply in_days in Hx.
      unfold selected, in_count, in_until, is_exception. rewrite N0, N1, U0, U1, X0, C0, C1. cbn [existsb negb].
      replace (x <=? d - 1) with true by lia. now rewrite !andb_true_r.
    - intros x Hx. apply in_days in Hx. unfold selected, in_until. rewrite U0, U1. replace (x <=? d - 1) with false by lia.
      now rewrite andb_false_r. }
  assert (E1 : l1 = filter (selected (code_on r) r s) (days s (d - 1))).
  { subst l1. unfold expected. rewrite (days_split s (d - 1) e) by lia. rewrite filter_app, (filter_none _ (days (d - 1 + 1) e)).
    - rewrite app_nil_r. apply filter_ext_in. intros x Hx. apply in_days in Hx. unfold selected. rewrite C1.
      unfold in_count at 1. rewrite N1. unfold in_until at 1. rewrite U1. replace (x <=? d - 1) with true by lia.
      assert (I : in_count (code_on r) r s x = true).
      { unfold in_count in *. destruct (r_count r) as [c|]; [|reflexivity]. pose proof (rank_mono (code_on r) s x d ltac:(lia) ltac:(lia)). lia. }
      assert (J : in_until r x = true) by (unfold in_until in *; destruct (r_until r) as [[u| |]|]; try discriminate; try reflexivity; lia).
      rewrite I, J. unfold is_exception. now rewrite X1.
    - intros x Hx. apply in_days in Hx. unfold selected, in_until. rewrite U1. replace (x <=? d - 1) with false by lia. now rewrite andb_false_r. }
  assert (E2 : l2 = filter (selected (code_on r) r s) (days d e)).
  { subst l2. unfold expected. apply filter_ext_in. intros x Hx. apply in_days in Hx.
    assert (CO : forall y, d <= y -> code_on r2 d y = code_on r s y) by (intros y Hy; rewrite C2; apply code_on_restart; try assumption; lia).
    unfold selected. rewrite CO by lia. f_equal; [|unfold is_exception; now rewrite X2]. f_equal; [|unfold in_until; now rewrite U2].
    f_equal. unfold in_count. rewrite N2. destruct (r_count r) as [c|]; cbn [option_map]; [|reflexivity].
    rewrite (rank_split (code_on r) s d x) by lia. rewrite L0.
    replace (rank (code_on r2) d x) with (Z.of_nat (List.length (filter (code_on r s) (days d (x - 1))))).
    - lia.
    - unfold rank. do 2 f_equal. apply filter_ext_in. intros y Hy. apply in_days in Hy. symmetry. apply CO. lia. }
  rewrite E1, E2, <- filter_app. unfold expected. f_equal.
  rewrite (days_split s (d - 1) e) by lia. now replace (d - 1 + 1) with d by lia.
Qed.

(** The same for events: two events that take over from each other occur at the
    times of the one they replace. *)
Definition times (l : list (occurrence event)) : list (Z * option Z) := map (fun o => (o_dtstart o, o_duration o)) l.

Lemma expand_dates_times e p l : forall out, expand_dates e p l = Ok out ->
  times out = map (fun d => (combine d (dt_time (e_dtstart e)), e_duration e))
                  (filter (fun d => match in_period (combine d (dt_time (e_dtstart e))) (e_duration e) p with Ok b => b | _ => false end) l).
Proof.
  unfold expand_dates. induction l as [|d l IH]; intros out H; cbn [rconcat_map] in H.
  - now injection H as <-.
  - cbv beta in H. cbn [filter]. destruct (in_period _ _ _) as [b| |]; try discriminate. cbn [rbind] in H.
    destruct (rconcat_map _ l) as [o| |]; try discriminate. cbn [rbind] in H. injection H as <-.
    unfold times in *. rewrite map_app, (IH o eq_refl). now destruct b.
Qed.

Lemma expand_rule F e p out r : e_recurrence e = Some r -> expand F e p = Ok out -> exists pe l, snd p = Some pe
  /\ apply F r (e_dtstart e) (Some (VDate (dt_date pe))) = (l, GStop) /\ expand_dates e p l = Ok out.
Proof.
  intros R H. unfold expand in H. rewrite R in H. destruct (snd p) as [pe|]; [|discriminate].
  destruct (apply F r (e_dtstart e) (Some (VDate (dt_date pe)))) as [l f] eqn:A.
  destruct (expand_dates e p l) as [o| |] eqn:X; try discriminate. cbn [rbind] in H. destruct f; try discriminate. injection H as <-.
  exists pe, l. auto.
Qed.

Theorem C130_occurrences : forall F F0 F1 F2 e e1 e2 b pe d l0 r r0 r1 r2 out out1 out2,
  e_recurrence e = Some r -> valid_rule r -> r_kind r <> KNo -> 1 <= dt_date (e_dtstart e) ->
  expand F e (b, Some pe) = Ok out ->
  In d (fst (apply F r (e_dtstart e) (Some (VDate (dt_date pe))))) -> same_part r (dt_date (e_dtstart e)) d ->
  (* the first: as before, until the day before *)
  replace r None (Some None) (Some (Some (VDate (d - 1)))) None None None = Ok r1 ->
  e_recurrence e1 = Some r1 -> e_dtstart e1 = e_dtstart e -> e_duration e1 = e_duration e ->
  (* repetitions used up *)
  replace r1 None None None (Some []) None None = Ok r0 ->
  apply F0 r0 (e_dtstart e) (Some (VDate (dt_date pe))) = (l0, GStop) ->
  (* the second: from that date on, at the same time of day *)
  replace r None (Some (option_map (fun c => c - Z.of_nat (List.length l0)) (r_count r))) None None None None = Ok r2 ->
  e_recurrence e2 = Some r2 -> e_dtstart e2 = combine d (dt_time (e_dtstart e)) -> e_duration e2 = e_duration e ->
  expand F1 e1 (b, Some pe) = Ok out1 -> expand F2 e2 (b, Some pe) = Ok out2 ->
  times out = times out1 ++ times out2.
Proof.
  intros F F0 F1 F2 e e1 e2 b pe d l0 r r0 r1 r2 out out1 out2 R V K Hs E Hd SP R1 E1 S1 D1 R0 A0 R2 E2 S2 D2 X1 X2.
  destruct (expand_rule _ _ _ _ _ R E) as (pe' & l & P & A & X). cbn [snd] in P. injection P as <-. rewrite A in Hd. cbn [fst] in Hd.
  destruct (expand_rule _ _ _ _ _ E1 X1) as (pe' & l1 & P & A1 & X1'). cbn [snd] in P. injection P as <-.
  destruct (expand_rule _ _ _ _ _ E2 X2) as (pe' & l2 & P & A2 & X2'). cbn [snd] in P. injection P as <-.
  rewrite S1 in A1.
  assert (T : 0 <= dt_time (e_dtstart e) < DAY) by (unfold dt_time; apply Z.mod_pos_bound; reflexivity).
  assert (D2' : dt_date (e_dtstart e2) = d) by (rewrite S2; unfold combine, dt_date, DAY in *; lia).
  assert (T2 : dt_time (e_dtstart e2) = dt_time (e_dtstart e)).
  { rewrite S2. unfold combine. unfold dt_time at 1. rewrite Z.add_comm, Z.mod_add by discriminate. now apply Z.mod_small. }
  rewrite (C130_split F F0 F1 F2 r (e_dtstart e) (e_dtstart e2) _ d l l0 l1 l2 r0 r1 r2 V K Hs A Hd SP R1 A1 R0 A0 D2' R2 A2) in X.
  rewrite (expand_dates_times _ _ _ _ X), (expand_dates_times _ _ _ _ X1'), (expand_dates_times _ _ _ _ X2').
  rewrite T2, S1, D1, D2. now rewrite filter_app, map_app.
Qed.

(** * C131 rules that designate the same days give the same dates *)
Lemma same_days F F' r r' dt e l l' : r_kind r <> KNo -> r_kind r' <> KNo -> valid_rule r -> valid_rule r' -> 1 <= dt_date dt ->
  r_count r' = r_count r -> r_until r' = r_until r -> r_exceptions r' = r_exceptions r ->
  (forall d, dt_date dt <= d -> code_on r' (dt_date dt) d = code_on r (dt_date dt) d) ->
  apply F r dt (Some (VDate e)) = (l, GStop) -> apply F' r' dt (Some (VDate e)) = (l', GStop) -> l' = l.
Proof.
  intros K K' V V' Hs N U X On A A'. apply apply_sound in A; [|assumption..]. apply apply_sound in A'; [|assumption..]. subst.
  rewrite (expected_ext (code_on r') (code_on r)) by exact On. unfold expected. apply filter_ext_in. intros d _.
  unfold selected, in_count, in_until, is_exception. now rewrite N, U, X.
Qed.

Lemma weekday_week d : d = 7 * week_no d + weekday d + 1.
Proof. unfold week_no, weekday. lia. Qed.

(** every [n] weeks on the start's weekday is every [7 n] days *)
Theorem C131_weekly_is_daily : forall F F' n c u x dt e w d l l', 1 <= dt_date dt ->
  mk_rule KWeekly n c u x [] "" = Ok w -> mk_rule KDaily (7 * n) c u x [] "" = Ok d ->
  apply F w dt (Some (VDate e)) = (l, GStop) -> apply F' d dt (Some (VDate e)) = (l', GStop) -> l' = l.
Proof.
  intros F F' n c u x dt e w d l l' Hs W D. remember (7 * n) as n7 eqn:N7. pose proof (mk_rule_ok _ _ _ _ _ _ _ _ W) as V. pose proof (mk_rule_ok _ _ _ _ _ _ _ _ D) as V'.
  pose proof (proj1 (validate_inv _ V)) as Hi.
  unfold mk_rule in W, D. destruct (validate _); try discriminate. injection W as <-. destruct (validate _); try discriminate. injection D as <-.
  cbn [r_interval] in Hi. apply same_days; try assumption; try discriminate; try reflexivity.
  intros y Hy. unfold code_on, on_day; cbn [r_kind r_interval r_weekdays z_in existsb]. rewrite orb_false_r.
  apply Bool.eq_iff_eq_true. rewrite andb_true_iff, Z.eqb_eq, !every_spec by lia.
  pose proof (weekday_week y) as WY. pose proof (weekday_week (dt_date dt)) as WS.
  pose proof (weekday_range y). pose proof (weekday_range (dt_date dt)).
  split.
  - intros [j J]. assert (E : weekday y = weekday (dt_date dt)).
    { unfold weekday. rewrite J, N7. replace (dt_date dt + j * (7 * n) + 6) with (dt_date dt + 6 + (j * n) * 7) by lia. now rewrite Z.mod_add by lia. }
    split; [exists j; lia | exact E].
  - intros [[j J] E]. exists j. rewrite J in WY. lia.
Qed.

(** every week on all weekdays is every day *)
Theorem C131_all_weekdays_is_daily : forall F F' c u x wd dt e w d l l', 1 <= dt_date dt ->
  (forall i, 0 <= i <= 6 -> In i wd) ->
  mk_rule KWeekly 1 c u x wd "" = Ok w -> mk_rule KDaily 1 c u x [] "" = Ok d ->
  apply F w dt (Some (VDate e)) = (l, GStop) -> apply F' d dt (Some (VDate e)) = (l', GStop) -> l' = l.
Proof.
  intros F F' c u x wd dt e w d l l' Hs All W D. pose proof (mk_rule_ok _ _ _ _ _ _ _ _ W) as V. pose proof (mk_rule_ok _ _ _ _ _ _ _ _ D) as V'.
  unfold mk_rule in W, D. destruct (validate _); try discriminate. injection W as <-. destruct (validate _); try discriminate. injection D as <-.
  apply same_days; try assumption; try discriminate; try reflexivity.
  intros y Hy. unfold code_on, on_day; cbn [r_kind r_interval r_weekdays]. unfold every. rewrite !Z.mod_1_r.
  replace (z_in (weekday y) wd) with true; [now rewrite orb_true_r|].
  symmetry. apply existsb_exists. exists (weekday y). split; [apply All, weekday_range | lia].
Qed.

(** on the same day of the month every [12 n] months is every [n] years *)
Theorem C131_monthly_is_yearly : forall F F' n c u x dt e m y l l', 1 <= dt_date dt ->
  mk_rule KMonthly (12 * n) c u x [] "monthday" = Ok m -> mk_rule KYearly n c u x [] "" = Ok y ->
  apply F m dt (Some (VDate e)) = (l, GStop) -> apply F' y dt (Some (VDate e)) = (l', GStop) -> l' = l.
Proof.
  intros F F' n c u x dt e m y l l' Hs M Y. remember (12 * n) as n12 eqn:N12. pose proof (mk_rule_ok _ _ _ _ _ _ _ _ M) as V. pose proof (mk_rule_ok _ _ _ _ _ _ _ _ Y) as V'.
  pose proof (proj1 (validate_inv _ V')) as Hi.
  unfold mk_rule in M, Y. destruct (validate _); try discriminate. injection M as <-. destruct (validate _); try discriminate. injection Y as <-.
  cbn [r_interval] in Hi. apply same_days; try assumption; try discriminate; try reflexivity.
  intros d Hd. unfold code_on, on_day; cbn [r_kind r_interval r_monthly String.eqb Ascii.eqb Bool.eqb].
  pose proof (month_range d ltac:(lia)). pose proof (month_range (dt_date dt) ltac:(lia)).
  apply Bool.eq_iff_eq_true. rewrite !andb_true_iff, !Z.eqb_eq, !every_spec by lia. unfold month_no.
  split.
  - intros [[D1 D2] [j J]]. split; [|exact D1]. exists j. rewrite J, D2. lia.
  - intros [[j J] D1]. assert (E : 12 * (year_of d - year_of (dt_date dt) - j * n) = month_of (dt_date dt) - month_of d) by lia.
    assert (Z0 : year_of d - year_of (dt_date dt) - j * n = 0) by lia. repeat split; try lia. exists j. lia.
Qed.

(** the weekdays of a weekly rule are a set that contains the start's own *)
Theorem C131_weekdays_are_a_set : forall F F' n c u x wd wd' dt e w w' l l', 1 <= dt_date dt ->
  (forall i, i = weekday (dt_date dt) \/ In i wd <-> i = weekday (dt_date dt) \/ In i wd') ->
  mk_rule KWeekly n c u x wd "" = Ok w -> mk_rule KWeekly n c u x wd' "" = Ok w' ->
  apply F w dt (Some (VDate e)) = (l, GStop) -> apply F' w' dt (Some (VDate e)) = (l', GStop) -> l' = l.
Proof.
  intros F F' n c u x wd wd' dt e w w' l l' Hs Same W D. pose proof (mk_rule_ok _ _ _ _ _ _ _ _ W) as V. pose proof (mk_rule_ok _ _ _ _ _ _ _ _ D) as V'.
  unfold mk_rule in W, D. destruct (validate _); try discriminate. injection W as <-. destruct (validate _); try discriminate. injection D as <-.
  apply same_days; try assumption; try discriminate; try reflexivity.
  intros d Hd. unfold code_on, on_day; cbn [r_kind r_interval r_weekdays]. f_equal. apply Bool.eq_iff_eq_true.
  rewrite !orb_true_iff, !Z.eqb_eq. unfold z_in. rewrite !existsb_exists.
  assert (Q : forall L, (exists z, In z L /\ (weekday d =? z) = true) <-> In (weekday d) L).
  { intros L. split; [intros (z & Z1 & Z2); apply Z.eqb_eq in Z2; now subst | intros I; exists (weekday d); split; [exact I|lia]]. }
  rewrite !Q. symmetry. apply Same.
Qed.

(** * C132 what replacing one argument of a rule does to its dates *)
Lemma filter_filter {A} (p q : A -> bool) l : filter p (filter q l) = filter (fun x => q x && p x) l.
Proof. induction l as [|a l IH]; [reflexivity|]. cbn [filter]. destruct (q a); cbn [filter andb]; [destruct (p a)|]; now rewrite IH. Qed.

(** further exceptions remove these dates and no others *)
Theorem C132_exceptions : forall F F' r dt e x r' l l', r_kind r <> KNo -> valid_rule r -> 1 <= dt_date dt ->
  replace r None None None (Some (x ++ r_exceptions r)) None None = Ok r' ->
  apply F r dt (Some (VDate e)) = (l, GStop) -> apply F' r' dt (Some (VDate e)) = (l', GStop) ->
  l' = filter (fun d => negb (existsb (dval_eqb (VDate d)) x)) l.
Proof.
  intros F F' r dt e x r' l l' K V Hs R A A'. apply replace_inv in R as (V' & K' & C' & N' & U' & X').
  apply apply_sound in A; [|assumption..]. apply apply_sound in A'; [|congruence|assumption..]. subst.
  unfold expected. rewrite filter_filter. apply filter_ext_in. intros d Hd. apply in_days in Hd. unfold selected.
  rewrite C'. replace (in_count (code_on r') r' (dt_date dt) d) with (in_count (code_on r) r (dt_date dt) d).
  - replace (in_until r' d) with (in_until r d) by (unfold in_until; now rewrite U'). replace (is_exception r' d) with (existsb (dval_eqb (VDate d)) x || is_exception r d).
    + now destruct (code_on r (dt_date dt) d), (in_count (code_on r) r (dt_date dt) d), (in_until r d), (is_exception r d), (existsb (dval_eqb (VDate d)) x).
    + unfold is_exception. rewrite X', existsb_app. f_equal. clear.
      induction x as [|v x IH]; [reflexivity|]. cbn [existsb]. rewrite <- IH. f_equal. destruct v; cbn; try reflexivity. apply Z.eqb_sym.
  - unfold in_count. rewrite N'. destruct (r_count r); [|reflexivity]. now rewrite (rank_ext (code_on r') (code_on r)) by (intros; apply C').
Qed.

(** an earlier until date cuts the dates off *)
Theorem C132_until : forall F F' r dt e u r' l l', r_kind r <> KNo -> valid_rule r -> 1 <= dt_date dt ->
  r_until r = None \/ (exists u0, r_until r = Some (VDate u0) /\ u <= u0) ->
  replace r None None (Some (Some (VDate u))) None None None = Ok r' ->
  apply F r dt (Some (VDate e)) = (l, GStop) -> apply F' r' dt (Some (VDate e)) = (l', GStop) ->
  l' = filter (fun d => d <=? u) l.
Proof.
  intros F F' r dt e u r' l l' K V Hs Un R A A'. apply replace_inv in R as (V' & K' & C' & N' & U' & X').
  apply apply_sound in A; [|assumption..]. apply apply_sound in A'; [|congruence|assumption..]. subst.
  unfold expected. rewrite filter_filter. apply filter_ext_in. intros d Hd. apply in_days in Hd. unfold selected.
  rewrite C'. replace (in_count (code_on r') r' (dt_date dt) d) with (in_count (code_on r) r (dt_date dt) d).
  - replace (in_until r' d) with (in_until r d && (d <=? u)).
    + replace (is_exception r' d) with (is_exception r d) by (unfold is_exception; now rewrite X').
      now destruct (code_on r (dt_date dt) d), (in_count (code_on r) r (dt_date dt) d), (in_until r d), (is_exception r d), (d <=? u).
    + unfold in_until. rewrite U'. destruct Un as [-> | (u0 & -> & L)]; [reflexivity|lia].
  - unfold in_count. rewrite N'. destruct (r_count r); [|reflexivity]. now rewrite (rank_ext (code_on r') (code_on r)) by (intros; apply C').
Qed.

(** a count keeps that many dates from the start on; those excepted count *)
Lemma filter_count (p : Z -> bool) c : forall n s acc,
  filter (fun d => p d && (acc + Z.of_nat (List.length (filter p (days s (d - 1)))) <? c)) (days s (s + Z.of_nat n - 1))
  = firstn (Z.to_nat (c - acc)) (filter p (days s (s + Z.of_nat n - 1))).
Proof.
  induction n as [|n IH]; intros s acc.
  - rewrite days_nil by lia. cbn [filter]. now rewrite firstn_nil.
  - rewrite days_cons by lia. cbn [filter]. rewrite (days_nil s (s - 1)) by lia. cbn [filter List.length].
    replace (s + Z.of_nat (S n) - 1) with ((s + 1) + Z.of_nat n - 1) by lia.
    destruct (p s) eqn:P; cbn [andb].
    + rewrite (filter_ext_in _ (fun d => p d && (acc + 1 + Z.of_nat (List.length (filter p (days (s + 1) (d - 1)))) <? c))).
      * rewrite IH. destruct (acc + Z.of_nat 0 <? c) eqn:Q.
        -- replace (Z.to_nat (c - acc)) with (S (Z.to_nat (c - (acc + 1)))) by lia. reflexivity.
        -- replace (Z.to_nat (c - (acc + 1))) with O by lia. replace (Z.to_nat (c - acc)) with O by lia. reflexivity.
      * intros d Hd. apply in_days in Hd. rewrite (days_cons s (d - 1)) by lia. cbn [filter]. rewrite P. cbn [List.length]. f_equal. lia.
    + rewrite (filter_ext_in _ (fun d => p d && (acc + Z.of_nat (List.length (filter p (days (s + 1) (d - 1)))) <? c))).
      * apply IH.
      * intros d Hd. apply in_days in Hd. rewrite (days_cons s (d - 1)) by lia. cbn [filter]. now rewrite P.
Qed.

Theorem C132_count : forall F F' r dt e c r0 r' l0 l', r_kind r <> KNo -> valid_rule r -> 1 <= dt_date dt ->
  replace r None (Some None) (Some None) (Some []) None None = Ok r0 ->
  replace r None (Some (Some c)) (Some None) None None None = Ok r' ->
  apply F r0 dt (Some (VDate e)) = (l0, GStop) -> apply F' r' dt (Some (VDate e)) = (l', GStop) ->
  l' = filter (fun d => negb (existsb (dval_eqb (VDate d)) (r_exceptions r))) (firstn (Z.to_nat c) l0).
Proof.
  intros F F' r dt e c r0 r' l0 l' K V Hs R0 R A0 A'. apply replace_inv in R as (V' & K' & C' & N' & U' & X').
  apply replace_inv in R0 as (V0 & K0 & C0 & N0 & U0 & X0).
  apply apply_sound in A0; [|congruence|assumption..]. apply apply_sound in A'; [|congruence|assumption..].
  set (s := dt_date dt) in *.
  assert (E0 : l0 = filter (code_on r s) (days s e)).
  { subst l0. apply filter_ext_in. intros d _. unfold selected, in_count, in_until, is_exception. rewrite N0, U0, X0, C0. cbn [existsb negb].
    now rewrite !andb_true_r. }
  rewrite E0. destruct (Z_le_gt_dec s e) as [L|L]; [|subst l'; unfold expected; rewrite days_nil by lia; cbn [filter]; now rewrite firstn_nil].
  pose proof (filter_count (code_on r s) c (Z.to_nat (e - s + 1)) s 0) as FC.
  replace (s + Z.of_nat (Z.to_nat (e - s + 1)) - 1) with e in FC by lia. rewrite Z.sub_0_r in FC. rewrite <- FC.
  subst l'. unfold expected. rewrite filter_filter. apply filter_ext_in. intros d Hd. apply in_days in Hd.
  unfold selected, in_count, in_until. rewrite N', U', C', andb_true_r. f_equal.
  - f_equal. rewrite (rank_ext (code_on r') (code_on r)) by (intros; apply C'). reflexivity.
  - unfold is_exception. rewrite X'. f_equal. clear.
    induction (r_exceptions r) as [|v x IH]; [reflexivity|]. cbn [existsb]. rewrite <- IH. f_equal. destruct v; cbn; try reflexivity. apply Z.eqb_sym.
Qed.

(** a multiple of the interval leaves out dates and adds none *)
Lemma every_multiple n j a b : 0 < n -> 0 < j -> every (n * j) a b = true -> every n a b = true.
Proof. intros Hn Hj H. apply every_spec in H as [k ->]; [|lia]. apply every_spec; [lia|]. exists (k * j). lia. Qed.

Theorem C132_interval : forall F F' r dt e j r' l l', r_kind r <> KNo -> valid_rule r -> 1 <= dt_date dt -> 1 <= j -> r_count r = None ->
  replace r (Some (r_interval r * j)) None None None None None = Ok r' ->
  apply F r dt (Some (VDate e)) = (l, GStop) -> apply F' r' dt (Some (VDate e)) = (l', GStop) ->
  incl l' l.
Proof.
  intros F F' r dt e j r' l l' K V Hs Hj N R A A'. pose proof (proj1 (validate_inv _ V)) as Hi.
  pose proof (mk_rule_ok _ _ _ _ _ _ _ _ R) as V'. unfold replace, mk_rule in R. destruct (validate _); try discriminate. injection R as <-.
  apply apply_sound in A; [|assumption..]. apply apply_sound in A'; [|assumption..]. subst. intros d Hd.
  apply filter_In in Hd as [H1 H2]. apply filter_In. split; [exact H1|]. apply in_days in H1.
  unfold selected, in_count, in_until, is_exception in *. cbn [r_count r_until r_exceptions] in H2. rewrite N in *.
  rewrite !andb_true_iff in *. destruct H2 as [[[O _] U] X]. repeat split; try assumption.
  unfold code_on, on_day, on_day_spill in *. cbn [r_kind r_interval r_weekdays r_monthly] in O.
  assert (EM : forall a b, every (r_interval r * j) a b = true -> every (r_interval r) a b = true) by (intros; apply (every_multiple _ j); assumption || lia).
  destruct (r_kind r) eqn:KK; try congruence; try (now apply EM).
  - rewrite !andb_true_iff in *. destruct O as [[? ?] O]. auto.
  - rewrite !andb_true_iff in *. destruct O as [O ?]. auto.
  - destruct (_ =? "monthday")%string; [|destruct (_ =? "weekday")%string]; rewrite !andb_true_iff in *; intuition.
Qed.

(** ** cases *)
Definition start0 : Z := ymd2ord 2005 1 3 * DAY + 9 * HOUR.    (* a Monday *)
Definition until0 : Z := ymd2ord 2005 2 28.
(** every second week on Mondays, Wednesdays and Fridays, ten times, one date excepted *)
Definition course : rule := mkRule KWeekly 2 (Some 10) None [VDate (ymd2ord 2005 1 19)] [0; 2; 4] "monthday".

(** the course is cut at its sixth date, 2005-02-02: six repetitions are used up *)
Example C130_ex : let d := ymd2ord 2005 2 2 in exists r0 r1 r2 l l0 l1 l2,
  validate course = Ok tt /\ r_kind course <> KNo
  /\ apply 300 course start0 (Some (VDate until0)) = (l, GStop) /\ In d l /\ same_part course (dt_date start0) d
  /\ replace course None (Some None) (Some (Some (VDate (d - 1)))) None None None = Ok r1
  /\ apply 300 r1 start0 (Some (VDate until0)) = (l1, GStop)
  /\ replace r1 None None None (Some []) None None = Ok r0
  /\ apply 300 r0 start0 (Some (VDate until0)) = (l0, GStop)
  /\ replace course None (Some (option_map (fun c => c - Z.of_nat (List.length l0)) (r_count course))) None None None None = Ok r2
  /\ apply 300 r2 (d * DAY + 10 * HOUR) (Some (VDate until0)) = (l2, GStop)
  /\ List.length l0 = 7%nat /\ List.length l1 = 6%nat /\ List.length l2 = 3%nat /\ List.length l = 9%nat.
Proof.
  cbv zeta. do 7 eexists. split; [vm_compute; reflexivity|]. split; [discriminate|]. split; [vm_compute; reflexivity|].
  split; [do 6 right; left; reflexivity|]. split; [left; left; reflexivity|].
  split; [vm_compute; reflexivity|]. split; [vm_compute; reflexivity|]. split; [vm_compute; reflexivity|]. split; [vm_compute; reflexivity|].
  split; [vm_compute; reflexivity|]. split; [vm_compute; reflexivity|]. repeat split.
Qed.

Definition lesson (t : Z) (r : rule) : event :=
  mkEvent "a" t (Some HOUR) "lesson" "" "" "CONFIRMED" (Some r) false [] false "PUBLIC" None (Some "ann"%string) [("ann", "ACCEPTED")]%string [("ann", "CHAIR")]%string.
Example C130_occurrences_ex : let d := ymd2ord 2005 2 2 in
  let p := (Some (start0 + 4 * DAY), Some (until0 * DAY)) in exists r1 r2 out out1 out2,
  replace course None (Some None) (Some (Some (VDate (d - 1)))) None None None = Ok r1
  /\ replace course None (Some (Some (10 - 7))) None None None None = Ok r2
  /\ expand 300 (lesson start0 course) p = Ok out /\ expand 300 (lesson start0 r1) p = Ok out1
  /\ expand 300 (lesson (combine d (dt_time start0)) r2) p = Ok out2
  /\ times out = times out1 ++ times out2 /\ List.length out1 = 4%nat /\ List.length out2 = 3%nat.
Proof.
  cbv zeta. do 5 eexists. split; [vm_compute; reflexivity|]. split; [vm_compute; reflexivity|].
  split; [vm_compute; reflexivity|]. split; [vm_compute; reflexivity|]. split; [vm_compute; reflexivity|]. split; [vm_compute; reflexivity|]. split; reflexivity.
Qed.

(** Cutting at a date that plays another part in the series: a weekly rule whose
    start's weekday is not among those given loses it, and a fifth weekday that
    spilled into the next month becomes a first one. *)
Example C130_part_needed :
  (let r := mkRule KWeekly 1 None None [] [2] "monthday" in let d := dt_date start0 + 2 in
   let l := fst (apply 300 r start0 (Some (VDate (d + 7)))) in
   In d l /\ In (d + 5) l /\ ~ In (d + 5) (fst (apply 300 r (d * DAY) (Some (VDate (d + 7))))))
  /\ (let r := mkRule KMonthly 1 None None [] [] "weekday" in let s := ymd2ord 2024 1 29 in let d := ymd2ord 2024 3 4 in
      let l := fst (apply 300 r (s * DAY) (Some (VDate (ymd2ord 2024 4 30)))) in
      In d l /\ l = [s; ymd2ord 2024 3 4; ymd2ord 2024 4 1; ymd2ord 2024 4 29]
      /\ fst (apply 300 r (d * DAY) (Some (VDate (ymd2ord 2024 4 30)))) = [d; ymd2ord 2024 4 1]).
Proof.
  split; cbv zeta.
  - split; [vm_compute; tauto|]. split; [vm_compute; tauto|]. vm_compute. intuition discriminate.
  - split; [vm_compute; tauto|]. split; vm_compute; reflexivity.
Qed.

Example C131_ex : let fri := start0 + 4 * DAY in let x := [VDate (ymd2ord 2005 2 4)] in
  (exists w d, mk_rule KWeekly 2 (Some 4) None x [] "" = Ok w /\ mk_rule KDaily (7 * 2) (Some 4) None x [] "" = Ok d
     /\ apply 300 w fri (Some (VDate (until0 + 90))) = ([dt_date fri; dt_date fri + 14; dt_date fri + 42], GStop)
     /\ apply 300 d fri (Some (VDate (until0 + 90))) = ([dt_date fri; dt_date fri + 14; dt_date fri + 42], GStop))
  /\ (exists w d l, mk_rule KWeekly 1 (Some 40) None x [6; 5; 4; 3; 2; 1; 0; 0] "" = Ok w /\ mk_rule KDaily 1 (Some 40) None x [] "" = Ok d
     /\ apply 300 w fri (Some (VDate until0)) = (l, GStop) /\ apply 300 d fri (Some (VDate until0)) = (l, GStop) /\ List.length l = 39%nat)
  /\ (exists m y l, mk_rule KMonthly (12 * 2) None None x [] "monthday" = Ok m /\ mk_rule KYearly 2 None None x [] "" = Ok y
     /\ apply 300 m fri (Some (VDate (until0 + 3000))) = (l, GStop) /\ apply 300 y fri (Some (VDate (until0 + 3000))) = (l, GStop)
     /\ l = [ymd2ord 2005 1 7; ymd2ord 2007 1 7; ymd2ord 2009 1 7; ymd2ord 2011 1 7; ymd2ord 2013 1 7])
  /\ (exists w w' l, mk_rule KWeekly 3 None None x [0; 2; 2] "" = Ok w /\ mk_rule KWeekly 3 None None x [4; 2; 0] "" = Ok w'
     /\ apply 300 w fri (Some (VDate until0)) = (l, GStop) /\ apply 300 w' fri (Some (VDate until0)) = (l, GStop) /\ List.length l = 7%nat).
Proof.
  cbv zeta. split; [|split; [|split]].
  - do 2 eexists. split; [vm_compute; reflexivity|]. split; [vm_compute; reflexivity|]. split; vm_compute; reflexivity.
  - do 3 eexists. split; [vm_compute; reflexivity|]. split; [vm_compute; reflexivity|]. split; [vm_compute; reflexivity|]. split; vm_compute; reflexivity.
  - do 3 eexists. split; [vm_compute; reflexivity|]. split; [vm_compute; reflexivity|]. split; [vm_compute; reflexivity|]. split; vm_compute; reflexivity.
  - do 3 eexists. split; [vm_compute; reflexivity|]. split; [vm_compute; reflexivity|]. split; [vm_compute; reflexivity|]. split; vm_compute; reflexivity.
Qed.

(** on 29 February the yearly rule raises where the monthly one skips, so that
    they do not finish together *)
Example C131_leap_day : let s := ymd2ord 2004 2 29 in
  snd (apply 300 (mkRule KYearly 1 None None [] [] "monthday") (s * DAY) (Some (VDate (s + 2000)))) = GRaise ValueError
  /\ apply 300 (mkRule KMonthly 12 None None [] [] "monthday") (s * DAY) (Some (VDate (s + 2000))) = ([s; ymd2ord 2008 2 29], GStop).
Proof. vm_compute. split; reflexivity. Qed.

Example C132_ex : let dates r := apply 300 r start0 (Some (VDate until0)) in let day n := ymd2ord 2005 1 3 + n in
  dates course = ([day 0; day 2; day 4; day 14; day 18; day 28; day 30; day 32; day 42], GStop)
  /\ (exists r', replace course None None None (Some ([VDate (day 14)] ++ r_exceptions course)) None None = Ok r'
      /\ dates r' = ([day 0; day 2; day 4; day 18; day 28; day 30; day 32; day 42], GStop))
  /\ (exists r0 r', replace course None (Some None) (Some None) (Some []) None None = Ok r0
      /\ replace course None (Some (Some 5)) (Some None) None None None = Ok r'
      /\ List.length (fst (dates r0)) = 13%nat /\ snd (dates r0) = GStop /\ dates r' = ([day 0; day 2; day 4; day 14], GStop))
  /\ (exists r0 r' r3, replace course None (Some None) None None None None = Ok r0
      /\ replace r0 None None (Some (Some (VDate (day 29)))) None None None = Ok r'
      /\ replace r0 (Some (2 * 2)) None None None None None = Ok r3
      /\ List.length (fst (dates r0)) = 12%nat /\ snd (dates r0) = GStop
      /\ dates r' = ([day 0; day 2; day 4; day 14; day 18; day 28], GStop)
      /\ dates r3 = ([day 0; day 2; day 4; day 28; day 30; day 32; day 56], GStop)).
Proof.
  cbv zeta. split; [vm_compute; reflexivity|]. split; [|split].
  - eexists. split; [vm_compute; reflexivity|]. vm_compute; reflexivity.
  - do 2 eexists. split; [vm_compute; reflexivity|]. split; [vm_compute; reflexivity|]. repeat split; vm_compute; reflexivity.
  - do 3 eexists. split; [vm_compute; reflexivity|]. split; [vm_compute; reflexivity|]. split; [vm_compute; reflexivity|]. repeat split; vm_compute; reflexivity.
Qed.

Print Assumptions C130_split.
Print Assumptions C130_occurrences.
Print Assumptions C131_weekly_is_daily.
Print Assumptions C131_all_weekdays_is_daily.
Print Assumptions C131_monthly_is_yearly.
Print Assumptions C131_weekdays_are_a_set.
Print Assumptions C132_exceptions.
Print Assumptions C132_until.
Print Assumptions C132_count.
Print Assumptions C132_interval.
