(** Each rule class generates exactly the days of its specification. *)
From Verif Require Import Base PyDate DateFacts Recurrent SpecRecur RecurProofs.
From Coq Require Import ZifyBool.
Ltac Zify.zify_post_hook ::= Z.div_mod_to_equations.
Local Opaque ord2ymd year_of month_of day_of ymd2ord days_in_month is_leap.

Definition sel_list on r ed s stop := filter (sel_ed on r ed s) (days s stop).

Lemma apply_unfold F r dt ed : r_kind r <> KNo ->
  apply F r dt (option_map VDate ed) =
  match r_kind r with
  | KNo => ([dt_date dt], GStop)
  | KBasic | KDaily => basic_loop F (basic_next r) r ed (dt_date dt) 0
  | KYearly => basic_loop F (yearly_next r) r ed (dt_date dt) 0
  | KWeekly => weekly_loop F r (weekday (dt_date dt) :: r_weekdays r) ed (dt_date dt) (dt_date dt) 0
  | KMonthly =>
      if String.eqb (r_monthly r) "monthday" then basic_loop F (monthly_next F r) r ed (dt_date dt) 0
      else if String.eqb (r_monthly r) "weekday" then apply_weekday F r (dt_date dt) ed
      else if String.eqb (r_monthly r) "lastweekday" then apply_lastweekday F r (dt_date dt) ed
      else ([], GStop)
  end.
Proof. intros H. unfold apply. destruct (r_kind r), ed; cbn; try reflexivity; congruence. Qed.

Lemma daily_stop r dt ed stop :
  (r_kind r = KDaily \/ r_kind r = KBasic) -> 1 <= r_interval r -> until_is_date r ->
  1 <= dt_date dt -> dt_date dt <= stop <= MAXORD ->
  on_day r (dt_date dt) stop = true -> over (on_day r) r ed (dt_date dt) stop = true ->
  yields r dt ed (sel_list (on_day r) r ed (dt_date dt) stop).
Proof.
  intros K Hi U Hs Hst P O. set (s := dt_date dt) in *.
  assert (EQ : forall d, on_day r s d = every (r_interval r) s d)
    by (intros d; unfold on_day; destruct K as [-> | ->]; reflexivity).
  destruct (basic_loop_exact (on_day r) (fun _ => basic_next r) r ed s stop) with (n := Z.to_nat (stop - s)) (cur := s)
    as [N HN]; try assumption; try lia.
  - intros cur c' A1 A2 A3 A4 A5 A6. exists 0%nat. intros _ _.
    rewrite EQ in A4, A5.
    apply (daily_next_ok r s stop); try assumption; try lia.
    intros d Hd. rewrite <- EQ. apply A6. exact Hd.
  - rewrite EQ. apply every_refl.
  - exists N. intros F HF. rewrite apply_unfold by (destruct K; congruence).
    rewrite rank_start in HN. fold s.
    destruct K as [-> | ->]; exact (HN F F HF HF).
Qed.

Lemma yearly_stop r dt ed stop :
  r_kind r = KYearly -> 1 <= r_interval r -> until_is_date r ->
  1 <= dt_date dt -> dt_date dt <= stop <= MAXORD ->
  ~ (month_of (dt_date dt) = 2 /\ day_of (dt_date dt) = 29) ->
  on_day r (dt_date dt) stop = true -> over (on_day r) r ed (dt_date dt) stop = true ->
  yields r dt ed (sel_list (on_day r) r ed (dt_date dt) stop).
Proof.
  intros K Hi U Hs Hst NF P O. set (s := dt_date dt) in *.
  assert (EQ : forall d, on_day r s d = yearly_on (r_interval r) s d)
    by (intros d; unfold on_day; rewrite K; reflexivity).
  destruct (basic_loop_exact (on_day r) (fun _ => yearly_next r) r ed s stop) with (n := Z.to_nat (stop - s)) (cur := s)
    as [N HN]; try assumption; try lia.
  - intros cur c' A1 A2 A3 A4 A5 A6. exists 0%nat. intros _ _.
    rewrite EQ in A4, A5.
    apply (yearly_next_ok r s stop); try assumption; try lia.
    intros d Hd. rewrite <- EQ. apply A6. exact Hd.
  - rewrite EQ. unfold yearly_on. now rewrite every_refl, !Z.eqb_refl.
  - exists N. intros F HF. rewrite apply_unfold by congruence.
    rewrite rank_start in HN. fold s. rewrite K. exact (HN F F HF HF).
Qed.

Lemma weekly_stop r dt ed stop :
  r_kind r = KWeekly -> 1 <= r_interval r -> until_is_date r ->
  1 <= dt_date dt -> dt_date dt <= stop <= MAXORD ->
  over (on_day r) r ed (dt_date dt) stop = true ->
  yields r dt ed (sel_list (on_day r) r ed (dt_date dt) stop).
Proof.
  intros K Hi U Hs Hst O. set (s := dt_date dt) in *.
  exists (S (Z.to_nat (stop - s))). intros F HF. rewrite apply_unfold by congruence.
  fold s. rewrite K.
  pose proof (weekly_loop_exact r ed s stop K Hi U ltac:(lia) ltac:(lia) ltac:(lia) O
               (Z.to_nat (stop - s)) s eq_refl ltac:(lia) F HF) as W.
  rewrite rank_start in W. exact W.
Qed.

Lemma monthday_stop r dt ed stop :
  r_kind r = KMonthly -> r_monthly r = "monthday"%string -> 1 <= r_interval r -> until_is_date r ->
  1 <= dt_date dt -> dt_date dt <= stop <= MAXORD ->
  on_day r (dt_date dt) stop = true -> over (on_day r) r ed (dt_date dt) stop = true ->
  yields r dt ed (sel_list (on_day r) r ed (dt_date dt) stop).
Proof.
  intros K KM Hi U Hs Hst P O. set (s := dt_date dt) in *.
  assert (EQ : forall d, on_day r s d = monthday_on (r_interval r) s d)
    by (intros d; unfold on_day; rewrite K, KM; reflexivity).
  destruct (basic_loop_exact (on_day r) (fun G => monthly_next G r) r ed s stop) with (n := Z.to_nat (stop - s)) (cur := s)
    as [N HN]; try assumption; try lia.
  - intros cur c' A1 A2 A3 A4 A5 A6.
    rewrite EQ in A4, A5.
    apply (monthly_next_ok r s stop); try assumption; try lia.
    intros d Hd. rewrite <- EQ. apply A6. exact Hd.
  - rewrite EQ. unfold monthday_on. now rewrite every_refl, !Z.eqb_refl.
  - exists N. intros F HF. rewrite apply_unfold by congruence.
    rewrite rank_start in HN. fold s. rewrite K, KM. exact (HN F F HF HF).
Qed.

Lemma filter_ext_days p q a b : (forall d, a <= d -> p d = q d) -> filter p (days a b) = filter q (days a b).
Proof.
  intros H. apply filter_ext_in. intros x Hx. apply in_days in Hx. apply H. lia.
Qed.

Lemma rank_ext on on' s d : (forall x, s <= x -> on s x = on' s x) -> rank on s d = rank on' s d.
Proof.
  intros H. unfold rank. now rewrite (filter_ext_days (on s) (on' s)).
Qed.

Lemma sel_list_ext on on' r ed s stop : (forall x, s <= x -> on s x = on' s x) ->
  sel_list on r ed s stop = sel_list on' r ed s stop.
Proof.
  intros H. unfold sel_list. apply filter_ext_days. intros d Hd.
  unfold sel_ed, selected, in_count. rewrite H, (rank_ext on on') by assumption. reflexivity.
Qed.

Lemma over_ext on on' r ed s d : (forall x, s <= x -> on s x = on' s x) ->
  over on r ed s d = over on' r ed s d.
Proof.
  intros H. unfold over, in_count. now rewrite (rank_ext on on').
Qed.

(** *** weekday modes *)

Lemma spill_weekday_on r s d : r_monthly r = "weekday"%string ->
  on_day_spill r s d = index_on (r_interval r) (weekday s) 0 (nth_weekday s) s d.
Proof.
  intros E. unfold on_day_spill, index_on. rewrite E. cbn [String.eqb Ascii.eqb Bool.eqb].
  rewrite !month_no_mi, Z.sub_0_r. reflexivity.
Qed.

Lemma nth_last_range s : 1 <= s -> 0 <= nth_last_weekday s <= 4.
Proof.
  intros H. pose proof (day_range s H). pose proof (dim_range (year_of s) (month_of s)).
  unfold nth_last_weekday. lia.
Qed.

Lemma nth_range s : 1 <= s -> 0 <= nth_weekday s <= 4.
Proof.
  intros H. pose proof (day_range s H). pose proof (dim_range (year_of s) (month_of s)).
  unfold nth_weekday. lia.
Qed.

Lemma spill_last_on r s d : 1 <= s -> s <= d -> r_monthly r = "lastweekday"%string ->
  on_day_spill r s d = index_on (r_interval r) (weekday s) 1 (- (nth_last_weekday s + 1)) s d.
Proof.
  intros Hs Hd E. unfold on_day_spill, index_on. rewrite E. cbn [String.eqb Ascii.eqb Bool.eqb].
  rewrite !month_no_mi.
  replace (d - 7 * - (nth_last_weekday s + 1)) with (d + 7 * (nth_last_weekday s + 1)) by lia.
  pose proof (nth_last_range s Hs).
  replace (1 <=? d + 7 * (nth_last_weekday s + 1)) with true by lia.
  rewrite andb_true_r. reflexivity.
Qed.

Lemma mi_ge12 s : 1 <= s -> 12 <= mi s.
Proof. intros H. pose proof (year_ge1 s H). pose proof (month_range s H). unfold mi. lia. Qed.

Lemma start_is_fw s : 1 <= s -> s = fw (mi s) (weekday s) + 7 * nth_weekday s.
Proof.
  intros H. pose proof (mi_ge12 s H). pose proof (day_range s H).
  pose proof (dim_range (year_of s) (month_of s)).
  pose proof (month_start_of s H) as M.
  set (x := s - 7 * nth_weekday s).
  destruct (month_start_add (mi s) (day_of s - 7 * nth_weekday s)) as (X1 & X2 & X3); [lia| |].
  { destruct (mi_div s H) as [-> ->]. unfold nth_weekday. lia. }
  replace (month_start (mi s) + (day_of s - 7 * nth_weekday s) - 1) with x in * by (subst x; lia).
  pose proof (fw_unique x X1) as FU. rewrite X2, X3 in FU.
  replace (weekday x) with (weekday s) in FU by (subst x; unfold weekday; lia).
  rewrite <- FU; [subst x; lia|]. unfold nth_weekday. lia.
Qed.

Lemma start_is_fw_last s : 1 <= s ->
  s = fw (mi s + 1) (weekday s) + 7 * - (nth_last_weekday s + 1).
Proof.
  intros H. pose proof (mi_ge12 s H). pose proof (day_range s H).
  pose proof (dim_range (year_of s) (month_of s)).
  pose proof (month_start_of s H) as M.
  pose proof (month_start_next (mi s)) as MN.
  destruct (mi_div s H) as [E1 E2]. rewrite E1, E2 in MN.
  set (x := s + 7 * (nth_last_weekday s + 1)).
  pose proof (dim_range ((mi s + 1) / 12) ((mi s + 1) mod 12 + 1)).
  destruct (month_start_add (mi s + 1) (x - month_start (mi s + 1) + 1)) as (X1 & X2 & X3); [lia| |].
  { subst x. rewrite MN, M. unfold nth_last_weekday. lia. }
  replace (month_start (mi s + 1) + (x - month_start (mi s + 1) + 1) - 1) with x in * by lia.
  pose proof (fw_unique x X1) as FU. rewrite X2, X3 in FU.
  replace (weekday x) with (weekday s) in FU by (subst x; unfold weekday; lia).
  rewrite <- FU; [subst x; lia|]. subst x. rewrite MN, M. unfold nth_last_weekday. lia.
Qed.

Lemma weekday_spill_stop r dt ed stop :
  r_kind r = KMonthly -> r_monthly r = "weekday"%string -> 1 <= r_interval r -> until_is_date r ->
  1 <= dt_date dt -> dt_date dt <= stop <= MAXORD ->
  on_day_spill r (dt_date dt) stop = true -> over (on_day_spill r) r ed (dt_date dt) stop = true ->
  yields r dt ed (sel_list (on_day_spill r) r ed (dt_date dt) stop).
Proof.
  intros K KM Hi U Hs Hst P O. set (s := dt_date dt) in *.
  assert (EQ : forall d, s <= d -> on_day_spill r s d
             = index_on (r_interval r) (weekday s) 0 (nth_weekday s) s d)
    by (intros; now apply spill_weekday_on).
  rewrite (sel_list_ext _ (index_on (r_interval r) (weekday s) 0 (nth_weekday s))) by exact EQ.
  rewrite (over_ext _ (index_on (r_interval r) (weekday s) 0 (nth_weekday s))) in O by exact EQ.
  rewrite EQ in P by lia.
  pose proof (nth_range s Hs).
  pose proof (start_is_fw s Hs) as SF.
  assert (SF0 : fw (mi s + 0) (weekday s) + 7 * nth_weekday s = s) by (rewrite Z.add_0_r; lia).
  exists (S (Z.to_nat (stop - s))). intros F HF. rewrite apply_unfold by congruence.
  fold s. rewrite K, KM. cbn [String.eqb Ascii.eqb Bool.eqb]. unfold apply_weekday.
  fold (nth_weekday s). destruct (mi_div s Hs) as [E1 E2].
  pose proof (index_loop_exact r ed s stop (weekday s) (nth_weekday s + 1) 0 (nth_weekday s)) as L.
  cbv zeta in L.
  specialize (L ltac:(lia) Hi (weekday_range s) U Hs ltac:(lia) ltac:(lia) ltac:(lia) P O
                (Z.to_nat (stop - s)) (mi s)).
  rewrite SF0, E1, E2, rank_start in L.
  apply L; try lia; try (apply mi_ge12; lia). apply every_refl.
Qed.

Lemma last_spill_stop r dt ed stop :
  r_kind r = KMonthly -> r_monthly r = "lastweekday"%string -> 1 <= r_interval r -> until_is_date r ->
  1 <= dt_date dt -> dt_date dt <= stop ->
  stop + 7 * (nth_last_weekday (dt_date dt) + 1) <= MAXORD ->
  on_day_spill r (dt_date dt) stop = true -> over (on_day_spill r) r ed (dt_date dt) stop = true ->
  yields r dt ed (sel_list (on_day_spill r) r ed (dt_date dt) stop).
Proof.
  intros K KM Hi U Hs Hst Hm P O. set (s := dt_date dt) in *.
  set (b := - (nth_last_weekday s + 1)).
  assert (EQ : forall d, s <= d -> on_day_spill r s d
             = index_on (r_interval r) (weekday s) 1 b s d)
    by (intros; now apply spill_last_on).
  rewrite (sel_list_ext _ (index_on (r_interval r) (weekday s) 1 b)) by exact EQ.
  rewrite (over_ext _ (index_on (r_interval r) (weekday s) 1 b)) in O by exact EQ.
  rewrite EQ in P by lia.
  pose proof (nth_last_range s Hs).
  pose proof (start_is_fw_last s Hs) as SF. fold b in SF.
  exists (S (Z.to_nat (stop - s))). intros F HF. rewrite apply_unfold by congruence.
  fold s. rewrite K, KM. cbn [String.eqb Ascii.eqb Bool.eqb]. unfold apply_lastweekday.
  replace ((day_of s - days_in_month (year_of s) (month_of s) - 1) / 7) with b
    by (subst b; unfold nth_last_weekday; lia).
  destruct (mi_div s Hs) as [E1 E2].
  pose proof (index_loop_exact r ed s stop (weekday s) b 1 b) as L.
  cbv zeta in L.
  specialize (L ltac:(lia) Hi (weekday_range s) U Hs ltac:(lia) ltac:(lia) ltac:(lia) P O
                (Z.to_nat (stop - s)) (mi s)).
  rewrite <- SF, E1, E2, rank_start in L.
  apply L; try lia; try (apply mi_ge12; lia). apply every_refl.
Qed.

(** on the first four weekdays the natural reading and the code's agree *)
Lemma on_day_weekday_natural r s d : r_kind r = KMonthly -> r_monthly r = "weekday"%string ->
  1 <= s -> s <= d -> day_of s <= 28 -> on_day r s d = on_day_spill r s d.
Proof.
  intros K KM Hs Hd H28. unfold on_day, on_day_spill. rewrite K, KM. cbn [String.eqb Ascii.eqb Bool.eqb].
  rewrite !month_no_mi. set (j := nth_weekday s).
  assert (Hj : 0 <= j <= 3) by (pose proof (day_range s Hs); subst j; unfold nth_weekday; lia).
  assert (H1 : 1 <= d) by lia.
  pose proof (day_range d H1) as DR. pose proof (dim_range (year_of d) (month_of d)).
  pose proof (month_start_of d H1) as M. pose proof (mi_ge12 d H1).
  destruct (mi_div d H1) as [E1 E2].
  apply Bool.eq_iff_eq_true. rewrite !andb_true_iff, !Z.eqb_eq, !Z.leb_le.
  split.
  - intros (A & B & C). unfold nth_weekday in C.
    destruct (month_start_add (mi d) (day_of d - 7 * j)) as (X1 & X2 & X3); [lia|rewrite E1, E2; lia|].
    replace (month_start (mi d) + (day_of d - 7 * j) - 1) with (d - 7 * j) in * by lia.
    rewrite X2, X3. repeat split; try assumption; lia.
  - intros (((A & B) & C) & D).
    set (x := d - 7 * j) in *.
    pose proof (day_range x B). pose proof (dim_range (year_of x) (month_of x)).
    pose proof (month_start_of x B) as MX. destruct (mi_div x B) as [Ex1 Ex2].
    pose proof (mi_ge12 x B).
    destruct (month_start_add (mi x) (day_of x + 7 * j)) as (X1 & X2 & X3); [lia|rewrite Ex1, Ex2; lia|].
    replace (month_start (mi x) + (day_of x + 7 * j) - 1) with d in * by (subst x; lia).
    rewrite X2. repeat split; try assumption. unfold nth_weekday. rewrite X3. lia.
Qed.

Lemma on_day_last_natural r s d : r_kind r = KMonthly -> r_monthly r = "lastweekday"%string ->
  1 <= s -> s <= d -> nth_last_weekday s <= 3 -> on_day r s d = on_day_spill r s d.
Proof.
  intros K KM Hs Hd Hn. unfold on_day, on_day_spill. rewrite K, KM. cbn [String.eqb Ascii.eqb Bool.eqb].
  rewrite !month_no_mi. set (j := nth_last_weekday s) in *.
  assert (Hj : 0 <= j <= 3) by (pose proof (nth_last_range s Hs); lia).
  assert (H1 : 1 <= d) by lia.
  pose proof (day_range d H1) as DR. pose proof (dim_range (year_of d) (month_of d)).
  pose proof (month_start_of d H1) as M. pose proof (mi_ge12 d H1).
  pose proof (month_start_next (mi d)) as MN.
  destruct (mi_div d H1) as [E1 E2]. rewrite E1, E2 in MN.
  set (x := d + 7 * (j + 1)).
  assert (B : 1 <= x) by lia.
  pose proof (day_range x B). pose proof (dim_range (year_of x) (month_of x)).
  pose proof (month_start_of x B) as MX. destruct (mi_div x B) as [Ex1 Ex2].
  pose proof (mi_ge12 x B).
  apply Bool.eq_iff_eq_true. rewrite !andb_true_iff, !Z.eqb_eq, !Z.leb_le.
  split.
  - intros (A & W & C). unfold nth_last_weekday in C.
    pose proof (dim_range ((mi d + 1) / 12) ((mi d + 1) mod 12 + 1)).
    destruct (month_start_add (mi d + 1) (x - month_start (mi d + 1) + 1)) as (X1 & X2 & X3);
      [lia|subst x; rewrite MN, M; lia|].
    replace (month_start (mi d + 1) + (x - month_start (mi d + 1) + 1) - 1) with x in * by lia.
    rewrite X2, X3. replace (mi d + 1 - 1) with (mi d) by lia.
    repeat split; try assumption. subst x. rewrite MN, M. lia.
  - intros ((W & C) & D).
    pose proof (month_start_next (mi x - 1)) as MP. replace (mi x - 1 + 1) with (mi x) in MP by lia.
    pose proof (dim_range ((mi x - 1) / 12) ((mi x - 1) mod 12 + 1)).
    assert (12 <= mi x - 1).
    { pose proof (mi_mono d x H1 ltac:(lia)).
      destruct (Z.eq_dec (mi d) (mi x)) as [X|X]; [|lia].
      pose proof (ord_diff_day d x H1 B X). lia. }
    destruct (month_start_add (mi x - 1) (d - month_start (mi x - 1) + 1)) as (X1 & X2 & X3);
      [lia|subst x; lia|].
    replace (month_start (mi x - 1) + (d - month_start (mi x - 1) + 1) - 1) with d in * by lia.
    rewrite X2. repeat split; try assumption. unfold nth_last_weekday.
    rewrite <- E1, <- E2, X2, X3. subst x. lia.
Qed.
