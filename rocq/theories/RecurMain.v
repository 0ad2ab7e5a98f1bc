(** Exactness for callers that pass an end date, ordering, truncation and
    termination of every rule. *)
From Verif Require Import Base PyDate DateFacts Recurrent SpecRecur RecurProofs RecurExact.
From Coq Require Import ZifyBool Sorted.
Ltac Zify.zify_post_hook ::= Z.div_mod_to_equations.
Local Opaque ord2ymd year_of month_of day_of ymd2ord days_in_month is_leap.

Lemma sel_list_enddate on r s e stop : e < stop ->
  sel_list on r (Some e) s stop = expected on r s e.
Proof.
  intros H. unfold sel_list, expected. destruct (Z_lt_le_dec e s) as [L|L].
  - rewrite (days_nil s e) by lia. apply filter_none. intros x Hx. apply in_days in Hx.
    unfold sel_ed, in_enddate. replace (x <=? e) with false by lia. apply andb_false_r.
  - rewrite (days_split s e stop) by lia. rewrite filter_app.
    rewrite (filter_none _ (days (e + 1) stop)).
    + rewrite app_nil_r. apply filter_ext_in. intros x Hx. apply in_days in Hx.
      unfold sel_ed, in_enddate. replace (x <=? e) with true by lia. apply andb_true_r.
    + intros x Hx. apply in_days in Hx.
      unfold sel_ed, in_enddate. replace (x <=? e) with false by lia. apply andb_false_r.
Qed.

Lemma sel_list_none on r s stop : sel_list on r None s stop = expected on r s stop.
Proof.
  unfold sel_list, expected. apply filter_ext. intros x. unfold sel_ed. apply andb_true_r.
Qed.

Lemma over_enddate on r s e d : e < d -> over on r (Some e) s d = true.
Proof. intros H. unfold over, in_enddate. replace (d <=? e) with false by lia. reflexivity. Qed.

(** a designated day after [e] is all that is needed *)
Lemma by_stop on r dt e :
  (forall stop, dt_date dt <= stop <= MAXORD -> on (dt_date dt) stop = true ->
     over on r (Some e) (dt_date dt) stop = true ->
     yields r dt (Some e) (sel_list on r (Some e) (dt_date dt) stop)) ->
  dt_date dt <= MAXORD -> on (dt_date dt) (dt_date dt) = true ->
  (dt_date dt <= e -> exists stop, e < stop <= MAXORD /\ on (dt_date dt) stop = true) ->
  yields r dt (Some e) (expected on r (dt_date dt) e).
Proof.
  intros H Hm Hss Hex. set (s := dt_date dt) in *.
  destruct (Z_lt_le_dec e s) as [L|L].
  - rewrite <- (sel_list_enddate on r s e s) by lia. apply H; [lia|assumption|now apply over_enddate].
  - destruct (Hex L) as (stop & H1 & H2).
    rewrite <- (sel_list_enddate on r s e stop) by lia.
    apply H; [lia|assumption|apply over_enddate; lia].
Qed.

Lemma daily_enddate r dt e :
  (r_kind r = KDaily \/ r_kind r = KBasic) -> 1 <= r_interval r -> until_is_date r ->
  1 <= dt_date dt <= MAXORD -> e + r_interval r <= MAXORD ->
  yields r dt (Some e) (expected (on_day r) r (dt_date dt) e).
Proof.
  intros K Hi U Hs He.
  assert (EQ : forall d, on_day r (dt_date dt) d = every (r_interval r) (dt_date dt) d)
    by (intros d; unfold on_day; destruct K as [-> | ->]; reflexivity).
  apply by_stop; try lia.
  - intros. apply daily_stop; try assumption; lia.
  - rewrite EQ. apply every_refl.
  - intros L. set (s := dt_date dt) in *. set (n := r_interval r) in *.
    exists (s + ((e - s) / n + 1) * n).
    pose proof (Z.div_mod (e - s) n ltac:(lia)). pose proof (Z.mod_pos_bound (e - s) n ltac:(lia)).
    split; [nia|]. rewrite EQ. apply every_spec; [lia|]. now exists ((e - s) / n + 1).
Qed.

Lemma weekly_enddate r dt e :
  r_kind r = KWeekly -> 1 <= r_interval r -> until_is_date r ->
  1 <= dt_date dt <= MAXORD -> e < MAXORD ->
  yields r dt (Some e) (expected (on_day r) r (dt_date dt) e).
Proof.
  intros K Hi U Hs He. set (s := dt_date dt) in *.
  rewrite <- (sel_list_enddate (on_day r) r s e (Z.max (e + 1) s)) by lia.
  apply weekly_stop; try assumption; fold s; try lia. apply over_enddate. lia.
Qed.

(** the same civil day in a later year *)
Lemma civil_later s y : 1 <= s <= MAXORD -> year_of s <= y <= MAXYEAR ->
  day_of s <= days_in_month y (month_of s) ->
  exists d, 1 <= d <= MAXORD /\ year_of d = y /\ month_of d = month_of s /\ day_of d = day_of s.
Proof.
  intros Hs Hy Hd. pose proof (ord_civil s ltac:(lia)) as [C1 C2]. pose proof (year_ge1 s ltac:(lia)).
  assert (C : civil y (month_of s) (day_of s)) by (split; lia).
  exists (ymd2ord y (month_of s) (day_of s)).
  rewrite ymd_year, ymd_month, ymd_day by (lia || assumption).
  repeat split; try reflexivity.
  - apply ymd2ord_pos; [lia|assumption].
  - pose proof (ymd2ord_pos y (month_of s) (day_of s) ltac:(lia) C) as P.
    apply year_le_iff; [assumption|]. rewrite ymd_year by (lia || assumption). lia.
Qed.

Lemma year_lt_ord a b : 1 <= a -> 1 <= b -> year_of a < year_of b -> a < b.
Proof.
  intros Ha Hb H. apply ord_lt_mi; try assumption.
  pose proof (month_range a Ha). pose proof (month_range b Hb). unfold mi. lia.
Qed.

Lemma next_multiple n a e : 0 < n -> a <= e -> exists k, 1 <= k /\ e < a + k * n <= e + n.
Proof.
  intros Hn H. exists ((e - a) / n + 1).
  pose proof (Z.div_mod (e - a) n ltac:(lia)). pose proof (Z.mod_pos_bound (e - a) n ltac:(lia)).
  pose proof (Z.div_pos (e - a) n ltac:(lia) ltac:(lia)).
  split; nia.
Qed.

Lemma year_mono a b : 1 <= a -> a <= b -> year_of a <= year_of b.
Proof.
  intros Ha H. destruct (Z_le_gt_dec (year_of a) (year_of b)); [assumption|].
  pose proof (year_lt_ord b a). lia.
Qed.

Lemma yearly_enddate r dt e :
  r_kind r = KYearly -> 1 <= r_interval r -> until_is_date r ->
  1 <= dt_date dt <= MAXORD ->
  ~ (month_of (dt_date dt) = 2 /\ day_of (dt_date dt) = 29) ->
  year_of e + r_interval r <= MAXYEAR ->
  yields r dt (Some e) (expected (on_day r) r (dt_date dt) e).
Proof.
  intros K Hi U Hs NF He.
  apply by_stop; try lia.
  - intros. apply yearly_stop; try assumption; lia.
  - unfold on_day. rewrite K. now rewrite every_refl, !Z.eqb_refl.
  - intros L. set (s := dt_date dt) in *.
    destruct (next_multiple (r_interval r) (year_of s) (year_of e)) as (k & K1 & K2);
      [lia|apply year_mono; lia|].
    destruct (civil_later s (year_of s + k * r_interval r)) as (d & D1 & D2 & D3 & D4); [lia|nia| |].
    { apply (dim_not_feb29 (year_of s)); [assumption|]. apply day_range. lia. }
    exists d. split; [split; [apply year_lt_ord; lia|lia]|].
    unfold on_day. rewrite K, D2, D3, D4, !Z.eqb_refl. cbn [andb].
    apply every_spec; [lia|]. now exists k.
Qed.

Lemma leap_in_four y n : is_leap y = true ->
  forall k, is_leap (y + 4 * n * k) = true \/ is_leap (y + 4 * n * (k + 1)) = true
  \/ is_leap (y + 4 * n * (k + 2)) = true \/ is_leap (y + 4 * n * (k + 3)) = true.
Proof.
  Local Transparent is_leap.
  intros H k. unfold is_leap in *.
  rewrite !andb_true_iff, !orb_true_iff, !negb_true_iff, !Z.eqb_eq, !Z.eqb_neq in *.
  remember (n * k) as z eqn:Ez.
  replace (4 * n * k) with (4 * z) by lia.
  replace (4 * n * (k + 1)) with (4 * z + 4 * n) by lia.
  replace (4 * n * (k + 2)) with (4 * z + 8 * n) by lia.
  replace (4 * n * (k + 3)) with (4 * z + 12 * n) by lia.
  destruct H as [H4 H].
  assert (A : forall x, (y + 4 * x) mod 4 = 0) by (intros; lia).
  replace (y + (4 * z + 4 * n)) with (y + 4 * (z + n)) by lia.
  replace (y + (4 * z + 8 * n)) with (y + 4 * (z + 2 * n)) by lia.
  replace (y + (4 * z + 12 * n)) with (y + 4 * (z + 3 * n)) by lia.
  rewrite !A. clear A.
  (* if one is not a century we are done; otherwise 25 | n and one of them is
     a multiple of 400 *)
  destruct (Z.eq_dec ((y + 4 * z) mod 100) 0) as [C0|C0]; [|tauto].
  destruct (Z.eq_dec ((y + 4 * (z + n)) mod 100) 0) as [C1|C1]; [|tauto].
  assert (N25 : exists m, n = 25 * m) by (exists (n / 25); lia).
  destruct N25 as [m ->].
  assert (Y4 : y mod 400 = 0) by (remember (m * k); lia).
  assert (EM : exists q, (m = 4 * q \/ m = 4 * q + 1 \/ m = 4 * q + 2 \/ m = 4 * q + 3)) by (exists (m / 4); lia).
  destruct EM as [q EM].
  assert (EK : exists j, (k = 4 * j \/ k = 4 * j + 1 \/ k = 4 * j + 2 \/ k = 4 * j + 3)) by (exists (k / 4); lia).
  destruct EK as [j EK].
  assert (Y5 : exists c, y = 400 * c) by (exists (y / 400); lia). destruct Y5 as [c ->].
  assert (EZ : exists t, (z = 100 * t \/ z = 100 * t + 25 \/ z = 100 * t + 50 \/ z = 100 * t + 75)).
  { exists (z / 100). assert (z = 25 * (m * k)) by lia. remember (m * k). lia. }
  destruct EZ as [t EZ].
  destruct EM as [->|[->|[->| ->]]].
  - assert (z = 100 * (q * k)) by lia. remember (q * k). lia.
  - destruct EZ as [->|[->|[->| ->]]]; lia.
  - assert (z = 100 * (q * k) + 50 * k) by lia.
    destruct EZ as [->|[->|[->| ->]]]; remember (q * k); lia.
  - destruct EZ as [->|[->|[->| ->]]]; lia.
  Local Opaque is_leap.
Qed.

Lemma monthday_on_day r s d : r_kind r = KMonthly -> r_monthly r = "monthday"%string ->
  on_day r s d = monthday_on (r_interval r) s d.
Proof. intros K KM. unfold on_day. rewrite K, KM. reflexivity. Qed.

Lemma monthday_later r s y : r_kind r = KMonthly -> r_monthly r = "monthday"%string ->
  1 <= r_interval r -> 1 <= s <= MAXORD ->
  (exists k, 0 <= k /\ y = year_of s + k * r_interval r) -> y <= MAXYEAR ->
  day_of s <= days_in_month y (month_of s) ->
  exists d, 1 <= d <= MAXORD /\ year_of d = y /\ on_day r s d = true.
Proof.
  intros K KM Hi Hs (k & K0 & Hk) Hy Hd.
  destruct (civil_later s y) as (d & D1 & D2 & D3 & D4); [lia|nia|assumption|].
  exists d. split; [lia|]. split; [assumption|].
  rewrite monthday_on_day by assumption. unfold monthday_on.
  rewrite D4, Z.eqb_refl, andb_true_r. apply every_spec; [lia|]. exists (12 * k).
  unfold month_no. rewrite D2, D3. lia.
Qed.

Lemma feb29_leap s : 1 <= s -> month_of s = 2 -> day_of s = 29 -> is_leap (year_of s) = true.
Proof.
  Local Transparent days_in_month.
  intros H M D. pose proof (day_range s H) as R. rewrite M, D in R.
  unfold days_in_month in R. cbn in R. destruct (is_leap (year_of s)); [reflexivity|lia].
  Local Opaque days_in_month.
Qed.

Lemma leap_feb y : is_leap y = true -> days_in_month y 2 = 29.
Proof.
  Local Transparent days_in_month.
  intros H. unfold days_in_month. cbn. now rewrite H.
  Local Opaque days_in_month.
Qed.

(** years within which a monthday repetition is sure to happen *)
Definition monthday_reach (s n : Z) : Z :=
  if (month_of s =? 2) && (day_of s =? 29) then 16 * n else n.

Lemma monthday_next_exists r s e : r_kind r = KMonthly -> r_monthly r = "monthday"%string ->
  1 <= r_interval r -> 1 <= s <= MAXORD -> s <= e ->
  year_of e + monthday_reach s (r_interval r) <= MAXYEAR ->
  exists d, e < d <= MAXORD /\ on_day r s d = true.
Proof.
  intros K KM Hi Hs Hse He. unfold monthday_reach in He. set (n := r_interval r) in *.
  pose proof (year_mono s e ltac:(lia) Hse) as YM.
  destruct ((month_of s =? 2) && (day_of s =? 29)) eqn:E.
  - assert (E2 : month_of s = 2 /\ day_of s = 29) by lia. destruct E2 as [E2 E3].
    pose proof (feb29_leap s ltac:(lia) E2 E3) as LP.
    destruct (next_multiple (4 * n) (year_of s) (year_of e)) as (k & K1 & K2); [lia|lia|].
    assert (X : exists j, (j = k \/ j = k + 1 \/ j = k + 2 \/ j = k + 3)
                  /\ is_leap (year_of s + 4 * n * j) = true).
    { destruct (leap_in_four _ n LP k) as [A|[A|[A|A]]];
        [exists k|exists (k + 1)|exists (k + 2)|exists (k + 3)]; (split; [lia|exact A]). }
    destruct X as (j & J & A).
    assert (JB : year_of e < year_of s + 4 * n * j <= year_of e + 16 * n)
      by (destruct J as [->|[->|[->| ->]]]; lia).
    assert (J0 : 1 <= j) by lia.
    destruct (monthday_later r s (year_of s + 4 * n * j)) as (d & D1 & D2 & D3);
      try assumption; try lia.
    + exists (4 * j). fold n. split; lia.
    + rewrite E2, E3, leap_feb by assumption. lia.
    + exists d. split; [|assumption]. split; [|lia]. apply year_lt_ord; try lia.
  - destruct (next_multiple n (year_of s) (year_of e)) as (k & K1 & K2); [lia|lia|].
    destruct (monthday_later r s (year_of s + k * n)) as (d & D1 & D2 & D3);
      try assumption; try lia.
    + exists k. fold n. lia.
    + apply (dim_not_feb29 (year_of s)); [lia|]. apply day_range. lia.
    + exists d. split; [|assumption]. split; [|lia]. apply year_lt_ord; lia.
Qed.

Lemma monthday_enddate_gen r dt e :
  r_kind r = KMonthly -> r_monthly r = "monthday"%string -> 1 <= r_interval r -> until_is_date r ->
  1 <= dt_date dt <= MAXORD ->
  (dt_date dt <= e -> exists d, e < d <= MAXORD /\ on_day r (dt_date dt) d = true) ->
  yields r dt (Some e) (expected (on_day r) r (dt_date dt) e).
Proof.
  intros K KM Hi U Hs He. apply by_stop; try lia; try assumption.
  - intros. apply monthday_stop; try assumption; lia.
  - rewrite monthday_on_day by assumption. unfold monthday_on. now rewrite every_refl, Z.eqb_refl.
Qed.

Lemma monthday_enddate r dt e :
  r_kind r = KMonthly -> r_monthly r = "monthday"%string -> 1 <= r_interval r -> until_is_date r ->
  1 <= dt_date dt <= MAXORD ->
  year_of e + monthday_reach (dt_date dt) (r_interval r) <= MAXYEAR ->
  yields r dt (Some e) (expected (on_day r) r (dt_date dt) e).
Proof.
  intros K KM Hi U Hs He. apply monthday_enddate_gen; try assumption.
  intros. now apply monthday_next_exists.
Qed.

(** *** weekday modes with an end date *)

Lemma fw_bounds k wd : 12 <= k -> 0 <= wd <= 6 -> month_start k <= fw k wd <= month_start k + 6.
Proof. intros. unfold fw. lia. Qed.

Lemma month_start_le k k' : 12 <= k -> k <= k' -> month_start k <= month_start k'.
Proof.
  intros H1 H2. destruct (Z.eq_dec k k') as [->|]; [lia|].
  pose proof (dim_range (k / 12) (k mod 12 + 1)). pose proof (dim_range (k' / 12) (k' mod 12 + 1)).
  pose proof (month_start_add k 1 H1 ltac:(lia)) as (A1 & A2 & A3).
  pose proof (month_start_add k' 1 ltac:(lia) ltac:(lia)) as (B1 & B2 & B3).
  pose proof (ord_lt_mi _ _ A1 B1). lia.
Qed.

Lemma ord_lt_month_start e k : 1 <= e -> mi e < k -> e < month_start k.
Proof.
  intros H1 H2. pose proof (mi_ge12 e H1).
  pose proof (month_start_add k 1 ltac:(lia)) as A.
  pose proof (dim_range (k / 12) (k mod 12 + 1)).
  destruct (A ltac:(lia)) as (A1 & A2 & A3).
  replace (month_start k + 1 - 1) with (month_start k) in * by lia.
  apply ord_lt_mi; lia.
Qed.

Lemma month_start_max : month_start (12 * 9999 + 11) + 30 = MAXORD.
Proof. reflexivity. Qed.

Lemma weekday_spill_next r s e : r_kind r = KMonthly -> r_monthly r = "weekday"%string ->
  1 <= r_interval r -> 1 <= s <= MAXORD -> s <= e ->
  mi e + r_interval r + 1 <= 12 * 9999 + 11 ->
  exists d, e < d <= MAXORD /\ on_day_spill r s d = true.
Proof.
  intros K KM Hi Hs Hse He. set (n := r_interval r) in *.
  destruct (next_multiple n (mi s) (mi e)) as (k & K1 & K2); [lia|apply mi_mono; lia|].
  pose proof (mi_ge12 s ltac:(lia)). pose proof (nth_range s ltac:(lia)).
  set (q := mi s + k * n) in *.
  assert (Q12 : 12 <= q) by lia.
  exists (fw q (weekday s) + 7 * nth_weekday s).
  pose proof (fw_bounds q (weekday s) ltac:(lia) (weekday_range s)).
  pose proof (ord_lt_month_start e q ltac:(lia) ltac:(lia)).
  pose proof (month_start_next q). pose proof (dim_range (q / 12) (q mod 12 + 1)).
  pose proof (month_start_le (q + 1) (12 * 9999 + 11) ltac:(lia) ltac:(lia)).
  pose proof month_start_max.
  split; [lia|].
  rewrite spill_weekday_on by assumption.
  pose proof (index_on_val n (weekday s) 0 (nth_weekday s) s q ltac:(lia) (weekday_range s)) as V.
  rewrite Z.add_0_r in V. fold n. rewrite V. apply every_spec; [lia|]. exists k. subst q. lia.
Qed.

Lemma last_spill_next r s e : r_kind r = KMonthly -> r_monthly r = "lastweekday"%string ->
  1 <= r_interval r -> 1 <= s <= MAXORD -> s <= e ->
  mi e + r_interval r + 2 <= 12 * 9999 + 11 ->
  exists d, e < d /\ d + 7 * (nth_last_weekday s + 1) <= MAXORD /\ on_day_spill r s d = true.
Proof.
  intros K KM Hi Hs Hse He. set (n := r_interval r) in *.
  pose proof (mi_mono s e ltac:(lia) ltac:(lia)).
  destruct (next_multiple n (mi s) (mi e + 1)) as (k & K1 & K2); [lia|lia|].
  pose proof (mi_ge12 s ltac:(lia)). pose proof (nth_last_range s ltac:(lia)).
  set (q := mi s + k * n) in *.
  assert (Q12 : 12 <= q) by lia.
  pose proof (fw_bounds (q + 1) (weekday s) ltac:(lia) (weekday_range s)).
  pose proof (ord_lt_month_start e (q - 1) ltac:(lia) ltac:(lia)).
  pose proof (month_start_next (q - 1)). pose proof (dim_range ((q - 1) / 12) ((q - 1) mod 12 + 1)).
  replace (q - 1 + 1) with q in * by lia.
  pose proof (month_start_next q). pose proof (dim_range (q / 12) (q mod 12 + 1)).
  pose proof (month_start_le (q + 1) (12 * 9999 + 11) ltac:(lia) ltac:(lia)).
  pose proof month_start_max.
  set (b := - (nth_last_weekday s + 1)).
  exists (fw (q + 1) (weekday s) + 7 * b).
  split; [lia|]. split; [lia|].
  rewrite spill_last_on by (assumption || lia). fold b n.
  rewrite index_on_val by (lia || apply weekday_range).
  apply every_spec; [lia|]. exists k. subst q. lia.
Qed.

Lemma spill_start_weekday r s : r_monthly r = "weekday"%string -> 1 <= s ->
  on_day_spill r s s = true.
Proof.
  intros KM Hs. rewrite spill_weekday_on by assumption.
  pose proof (index_on_val (r_interval r) (weekday s) 0 (nth_weekday s) s (mi s)) as V.
  rewrite Z.add_0_r, <- start_is_fw, every_refl in V by assumption.
  apply V; [now apply mi_ge12|apply weekday_range].
Qed.

Lemma spill_start_last r s : r_monthly r = "lastweekday"%string -> 1 <= s ->
  on_day_spill r s s = true.
Proof.
  intros KM Hs. rewrite spill_last_on by (assumption || lia).
  pose proof (index_on_val (r_interval r) (weekday s) 1 (- (nth_last_weekday s + 1)) s (mi s)) as V.
  rewrite <- start_is_fw_last, every_refl in V by assumption.
  apply V; [pose proof (mi_ge12 s Hs); lia|apply weekday_range].
Qed.

Lemma weekday_spill_enddate r dt e :
  r_kind r = KMonthly -> r_monthly r = "weekday"%string -> 1 <= r_interval r -> until_is_date r ->
  1 <= dt_date dt <= MAXORD -> mi e + r_interval r + 1 <= 12 * 9999 + 11 ->
  yields r dt (Some e) (expected (on_day_spill r) r (dt_date dt) e).
Proof.
  intros K KM Hi U Hs He. apply by_stop; try lia; try assumption.
  - intros. apply weekday_spill_stop; try assumption; lia.
  - apply spill_start_weekday; [assumption|lia].
  - intros. now apply weekday_spill_next.
Qed.

Lemma last_spill_enddate r dt e :
  r_kind r = KMonthly -> r_monthly r = "lastweekday"%string -> 1 <= r_interval r -> until_is_date r ->
  1 <= dt_date dt -> mi (dt_date dt) < 12 * 9999 + 11 -> mi e + r_interval r + 2 <= 12 * 9999 + 11 ->
  yields r dt (Some e) (expected (on_day_spill r) r (dt_date dt) e).
Proof.
  intros K KM Hi U Hs Hm He. set (s := dt_date dt) in *.
  pose proof (start_is_fw_last s Hs) as SF.
  pose proof (fw_bounds (mi s + 1) (weekday s) ltac:(pose proof (mi_ge12 s Hs); lia) (weekday_range s)).
  pose proof (month_start_le (mi s + 1) (12 * 9999 + 11) ltac:(pose proof (mi_ge12 s Hs); lia) ltac:(lia)).
  pose proof month_start_max. pose proof (nth_last_range s Hs).
  destruct (Z_lt_le_dec e s) as [L|L].
  - rewrite <- (sel_list_enddate (on_day_spill r) r s e s) by lia.
    apply last_spill_stop; try assumption; fold s; try lia.
    + now apply spill_start_last.
    + now apply over_enddate.
  - destruct (last_spill_next r s e) as (stop & H1' & H2' & H3'); try assumption; try lia.
    rewrite <- (sel_list_enddate (on_day_spill r) r s e stop) by lia.
    apply last_spill_stop; try assumption; fold s; try lia. now apply over_enddate.
Qed.

(** natural reading *)
Lemma expected_ext on on' r s e : (forall x, s <= x -> on s x = on' s x) ->
  expected on r s e = expected on' r s e.
Proof.
  intros H. rewrite <- !(sel_list_none _ r s e). now apply sel_list_ext.
Qed.
