(** Proofs about Recurrent.v. *)
From Verif Require Import Base PyDate DateFacts Recurrent SpecRecur.
From Coq Require Import ZifyBool Sorted.
Ltac Zify.zify_post_hook ::= Z.div_mod_to_equations.
Local Opaque ord2ymd year_of month_of day_of ymd2ord days_in_month is_leap.

(** ** Lists of days *)

Lemma days_nil a b : b < a -> days a b = [].
Proof. intros H. unfold days. replace (Z.to_nat (b - a + 1)) with O by lia. reflexivity. Qed.

Lemma days_cons a b : a <= b -> days a b = a :: days (a + 1) b.
Proof.
  intros H. unfold days.
  replace (Z.to_nat (b - a + 1)) with (S (Z.to_nat (b - (a + 1) + 1))) by lia.
  cbn [seq map]. f_equal; [lia|].
  rewrite <- seq_shift, map_map. apply map_ext. intros k. lia.
Qed.

Lemma days_snoc a b : a <= b + 1 -> days a (b + 1) = days a b ++ [b + 1].
Proof.
  intros H. unfold days.
  replace (Z.to_nat (b + 1 - a + 1)) with (Z.to_nat (b - a + 1) + 1)%nat by lia.
  rewrite seq_app, map_app. cbn. f_equal. f_equal. lia.
Qed.

Lemma in_days a b d : In d (days a b) <-> a <= d <= b.
Proof.
  unfold days. rewrite in_map_iff. split.
  - intros [k [E K]]. apply in_seq in K. lia.
  - intros H. exists (Z.to_nat (d - a)). rewrite in_seq. lia.
Qed.

Lemma days_split a b c : a <= b + 1 -> b <= c -> days a c = days a b ++ days (b + 1) c.
Proof.
  intros H1 H2.
  remember (Z.to_nat (c - b)) as n eqn:E. revert c H2 E.
  induction n as [|n IH]; intros c H2 E.
  - assert (c = b) by lia. subst. rewrite (days_nil (b + 1) b) by lia. now rewrite app_nil_r.
  - replace c with ((c - 1) + 1) by lia. rewrite !days_snoc by lia.
    rewrite IH by lia. now rewrite app_assoc.
Qed.

Lemma filter_none {A} (p : A -> bool) l : (forall x, In x l -> p x = false) -> filter p l = [].
Proof.
  induction l as [|x l IH]; intros H; [reflexivity|].
  cbn. rewrite (H x) by (left; reflexivity). apply IH. intros y Hy. apply H. now right.
Qed.

Lemma filter_days_skip p a b c : a <= b ->
  (forall d, a <= d < b -> p d = false) -> filter p (days a c) = filter p (days b c).
Proof.
  intros H K. destruct (Z_lt_le_dec c (b - 1)) as [L|L].
  - rewrite (days_nil b c) by lia. apply filter_none. intros x Hx. apply in_days in Hx.
    apply K. lia.
  - rewrite (days_split a (b - 1) c) by lia.
    replace (b - 1 + 1) with b by lia.
    rewrite filter_app, (filter_none p (days a (b - 1))); [reflexivity|].
    intros x Hx. apply in_days in Hx. apply K. lia.
Qed.

Lemma rank_succ on s d : s <= d ->
  rank on s (d + 1) = rank on s d + (if on s d then 1 else 0).
Proof.
  intros H. unfold rank. replace (d + 1 - 1) with ((d - 1) + 1) by lia.
  rewrite days_snoc by lia. rewrite filter_app, app_length, Nat2Z.inj_add.
  replace (d - 1 + 1) with d by lia. cbn. destruct (on s d); reflexivity.
Qed.

Lemma rank_start on s : rank on s s = 0.
Proof. unfold rank. rewrite days_nil by lia. reflexivity. Qed.

Lemma rank_mono on s a b : s <= a -> a <= b -> rank on s a <= rank on s b.
Proof.
  intros H1 H2. unfold rank. rewrite (days_split s (a - 1) (b - 1)) by lia.
  rewrite filter_app, app_length. lia.
Qed.

Lemma rank_gap on s a b : s <= a -> a <= b ->
  (forall d, a <= d < b -> on s d = false) -> rank on s b = rank on s a.
Proof.
  intros H1 H2 K. unfold rank. rewrite (days_split s (a - 1) (b - 1)) by lia.
  rewrite filter_app, (filter_none _ (days (a - 1 + 1) (b - 1))).
  - now rewrite app_nil_r.
  - intros x Hx. apply in_days in Hx. apply K. lia.
Qed.

Lemma rank_next on s a b : s <= a -> a < b -> on s a = true ->
  (forall d, a < d < b -> on s d = false) -> rank on s b = rank on s a + 1.
Proof.
  intros H1 H2 P K. rewrite (rank_gap on s (a + 1) b); [|lia|lia|intros; apply K; lia].
  rewrite rank_succ by lia. rewrite P. reflexivity.
Qed.

(** ** The break condition *)

Lemma excepted_is r d : excepted r d = is_exception r d.
Proof.
  unfold excepted, is_exception. induction (r_exceptions r) as [|v l IH]; [reflexivity|].
  cbn. rewrite IH. f_equal. destruct v; cbn; try reflexivity. apply Z.eqb_sym.
Qed.

Lemma stop_check_over on r ed s cur : until_is_date r ->
  stop_check ed r cur (rank on s cur) = Ok (over on r ed s cur).
Proof.
  intros U. unfold stop_check, over, in_enddate, in_count, in_until.
  unfold until_is_date in U.
  destruct ed as [e|]; destruct (r_count r) as [c|]; destruct (r_until r) as [[u|u|]|];
    try contradiction;
    repeat match goal with
    | |- context [if ?b then _ else _] => destruct b eqn:?
    end; try reflexivity; try (f_equal; lia).
Qed.

Lemma over_mono on r ed s a b : s <= a -> a <= b ->
  over on r ed s a = true -> over on r ed s b = true.
Proof.
  intros H1 H2. pose proof (rank_mono on s a b H1 H2).
  unfold over, in_enddate, in_count, in_until.
  destruct ed as [e|]; destruct (r_count r) as [c|]; destruct (r_until r) as [[u|u|]|]; cbn; lia.
Qed.

(** [selected] restricted to an end date *)
Definition sel_ed on r ed s d := selected on r s d && in_enddate ed d.

Lemma sel_ed_over on r ed s d : over on r ed s d = true -> sel_ed on r ed s d = false.
Proof.
  unfold over, sel_ed, selected. 
  destruct (on s d), (in_count on r s d), (in_until r d), (in_enddate ed d); cbn; try discriminate;
  intros; try reflexivity; now rewrite ?andb_false_r.
Qed.

Lemma sel_ed_go on r ed s d : over on r ed s d = false ->
  sel_ed on r ed s d = on s d && negb (is_exception r d).
Proof.
  unfold over, sel_ed, selected.
  destruct (on s d), (in_count on r s d), (in_until r d), (in_enddate ed d); cbn; try discriminate;
  intros; try reflexivity. now rewrite andb_true_r.
Qed.

Lemma filter_over on r ed s a b : s <= a -> over on r ed s a = true ->
  filter (sel_ed on r ed s) (days a b) = [].
Proof.
  intros H O. apply filter_none. intros x Hx. apply in_days in Hx.
  apply sel_ed_over. eapply over_mono; [| |exact O]; lia.
Qed.

(** least later designated day *)
Lemma least_after (p : Z -> bool) a b : a < b -> p b = true ->
  exists c, a < c <= b /\ p c = true /\ forall d, a < d < c -> p d = false.
Proof.
  intros H P. remember (Z.to_nat (b - a)) as n eqn:E. revert a H E.
  induction n as [|n IH]; intros a H E; [lia|].
  destruct (p (a + 1)) eqn:Q.
  - exists (a + 1). split; [lia|split; [exact Q|intros; lia]].
  - destruct (Z.eq_dec (a + 1) b) as [Eb|]; [rewrite Eb in Q; congruence|].
    destruct (IH (a + 1)) as (c & C1 & C2 & C3); [lia|lia|].
    exists c. split; [lia|split; [exact C2|]].
    intros d Hd. destruct (Z.eq_dec d (a + 1)) as [->|]; [exact Q|apply C3; lia].
Qed.

(** ** The basic loop *)

Lemma basic_loop_exact on next r ed s stop :
  until_is_date r -> s <= stop -> on s stop = true -> over on r ed s stop = true ->
  (forall cur c', s <= cur -> cur < c' -> c' <= stop -> on s cur = true -> on s c' = true ->
      (forall d, cur < d < c' -> on s d = false) ->
      exists N, forall G, (N <= G)%nat -> next G cur = Ok c') ->
  forall n cur, n = Z.to_nat (stop - cur) -> s <= cur <= stop -> on s cur = true ->
  exists N, forall F G, (N <= F)%nat -> (N <= G)%nat ->
    basic_loop F (next G) r ed cur (rank on s cur)
    = (filter (sel_ed on r ed s) (days cur stop), GStop).
Proof.
  intros U Hs Pstop Ostop Hnext n.
  induction n as [n IH] using lt_wf_ind. intros cur En Hc P.
  destruct (over on r ed s cur) eqn:O.
  - exists 1%nat. intros F G HF HG. destruct F as [|F]; [lia|]. cbn [basic_loop].
    rewrite stop_check_over, O by assumption. now rewrite filter_over by (lia || assumption).
  - assert (cur < stop).
    { destruct (Z.eq_dec cur stop) as [->|]; [congruence|lia]. }
    destruct (least_after (on s) cur stop) as (c' & C1 & C2 & C3); [lia|assumption|].
    destruct (Hnext cur c') as [N1 HN1]; try assumption; try lia.
    destruct (IH (Z.to_nat (stop - c'))) with (cur := c') as [N2 HN2]; try lia; try assumption.
    exists (S (N1 + N2)). intros F G HF HG. destruct F as [|F]; [lia|]. cbn [basic_loop].
    rewrite stop_check_over, O by assumption.
    rewrite HN1 by lia.
    rewrite <- (rank_next on s cur c') by (assumption || lia).
    rewrite HN2 by lia.
    rewrite (days_cons cur) by lia. cbn [filter].
    rewrite sel_ed_go, P by assumption. rewrite excepted_is.
    rewrite (filter_days_skip _ (cur + 1) c' stop); [|lia|].
    + destruct (is_exception r cur); reflexivity.
    + intros d Hd. unfold sel_ed, selected. rewrite C3 by lia. reflexivity.
Qed.

(** ** The weekly loop *)

Lemma weekspan_ok a b : 1 <= a <= MAXORD -> 1 <= b <= MAXORD ->
  weekspan a b = Ok (week_no b - week_no a).
Proof.
  intros Ha Hb. unfold weekspan, date_add, week_no, MAXORD in *.
  assert (1 <= a + - weekday a <= 3652059) by (unfold weekday; lia).
  assert (1 <= b + - weekday b <= 3652059) by (unfold weekday; lia).
  replace (_ && _) with true by lia. cbn [rbind].
  replace (_ && _) with true by lia. cbn [rbind]. f_equal.
  unfold weekday. lia.
Qed.

Lemma weekly_loop_exact r ed s stop :
  r_kind r = KWeekly -> 1 <= r_interval r ->
  until_is_date r -> 1 <= s -> s <= stop -> stop <= MAXORD -> over (on_day r) r ed s stop = true ->
  forall n cur, n = Z.to_nat (stop - cur) -> s <= cur <= stop ->
  forall F, (S n <= F)%nat ->
    weekly_loop F r (weekday s :: r_weekdays r) ed s cur (rank (on_day r) s cur)
    = (filter (sel_ed (on_day r) r ed s) (days cur stop), GStop).
Proof.
  intros K Hi U Hs1 Hs Hmax Ostop n.
  induction n as [n IH] using lt_wf_ind. intros cur En Hc F HF.
  destruct F as [|F]; [lia|]. cbn [weekly_loop].
  rewrite stop_check_over by assumption.
  destruct (over (on_day r) r ed s cur) eqn:O.
  - now rewrite filter_over by (lia || assumption).
  - assert (cur < stop).
    { destruct (Z.eq_dec cur stop) as [->|]; [congruence|lia]. }
    rewrite weekspan_ok by lia.
    replace (r_interval r =? 0) with false by lia.
    assert (Hit : ((week_no cur - week_no s) mod r_interval r =? 0)
                  && z_in (weekday cur) (weekday s :: r_weekdays r) = on_day r s cur).
    { unfold on_day. rewrite K. reflexivity. }
    rewrite Hit.
    unfold date_add. replace ((1 <=? cur + 1) && (cur + 1 <=? MAXORD)) with true by lia.
    assert (R : (if on_day r s cur then rank (on_day r) s cur + 1 else rank (on_day r) s cur)
                = rank (on_day r) s (cur + 1)).
    { rewrite rank_succ by lia. destruct (on_day r s cur); lia. }
    rewrite R. rewrite (IH (Z.to_nat (stop - (cur + 1)))) by lia.
    rewrite (days_cons cur) by lia. cbn [filter].
    rewrite sel_ed_go by assumption. rewrite excepted_is.
    destruct (on_day r s cur && negb (is_exception r cur)); reflexivity.
Qed.

(** ** Next-recurrence functions *)

Lemma month_no_mi d : month_no d = mi d.
Proof. unfold month_no, mi. lia. Qed.

Lemma every_spec n a b : 0 < n -> (every n a b = true <-> exists k, b = a + k * n).
Proof.
  intros H. unfold every. rewrite Z.eqb_eq. split.
  - intros E. exists ((b - a) / n). pose proof (Z.div_mod (b - a) n). lia.
  - intros [k ->]. replace (a + k * n - a) with (k * n) by lia. apply Z_mod_mult.
Qed.

(** steps of [n] from [a]: nothing strictly between consecutive ones *)
Lemma every_next n a x y : 0 < n -> every n a x = true -> every n a y = true -> x < y -> x + n <= y.
Proof.
  intros H Hx Hy L. apply every_spec in Hx as [k ->]; [|lia]. apply every_spec in Hy as [j ->]; [|lia].
  assert (k < j) by nia. nia.
Qed.

Lemma every_add n a x : 0 < n -> every n a x = true -> every n a (x + n) = true.
Proof.
  intros H Hx. apply every_spec in Hx as [k ->]; [|lia]. apply every_spec; [lia|].
  exists (k + 1). lia.
Qed.

Lemma every_refl n a : every n a a = true.
Proof. unfold every. rewrite Z.sub_diag, Zmod_0_l. reflexivity. Qed.

Lemma daily_next_ok r s stop cur c' :
  1 <= r_interval r -> 1 <= s -> stop <= MAXORD -> s <= cur -> cur < c' -> c' <= stop ->
  every (r_interval r) s cur = true -> every (r_interval r) s c' = true ->
  (forall d, cur < d < c' -> every (r_interval r) s d = false) ->
  basic_next r cur = Ok c'.
Proof.
  intros Hi Hs Hm H1 H2 H3 P1 P2 G. unfold basic_next, date_add.
  pose proof (every_next (r_interval r) _ _ _ ltac:(lia) P1 P2 H2) as L.
  assert (cur + r_interval r = c').
  { destruct (Z.eq_dec (cur + r_interval r) c') as [E|E]; [assumption|].
    pose proof (every_add (r_interval r) s cur ltac:(lia) P1) as A.
    rewrite G in A by lia. discriminate. }
  replace (_ && _) with true by lia. congruence.
Qed.

Definition yearly_on (n s d : Z) : bool :=
  (day_of d =? day_of s) && (month_of d =? month_of s) && every n (year_of s) (year_of d).

Lemma yearly_next_ok r s stop cur c' :
  1 <= r_interval r -> 1 <= s -> stop <= MAXORD -> s <= cur -> cur < c' -> c' <= stop ->
  ~ (month_of s = 2 /\ day_of s = 29) ->
  yearly_on (r_interval r) s cur = true -> yearly_on (r_interval r) s c' = true ->
  (forall d, cur < d < c' -> yearly_on (r_interval r) s d = false) ->
  yearly_next r cur = Ok c'.
Proof.
  intros Hi Hs Hm H1 H2 H3 NF P1 P2 G. unfold yearly_next, date_replace, yearly_on in *.
  rewrite !andb_true_iff, !Z.eqb_eq in P1, P2. destruct P1 as [[D1 M1] E1]. destruct P2 as [[D2 M2] E2].
  set (n := r_interval r) in *.
  assert (Hcur : 1 <= cur) by lia. assert (Hc' : 1 <= c') by lia.
  pose proof (ord_civil cur Hcur) as [Cm Cd].
  assert (LY : year_of cur < year_of c').
  { destruct (Z_lt_le_dec (year_of cur) (year_of c')) as [L|L]; [assumption|exfalso].
    pose proof (mi_mono cur c' Hcur ltac:(lia)) as MM. unfold mi in MM.
    assert (year_of cur = year_of c') by lia.
    pose proof (ord_eq_civil cur c' Hcur Hc'). unfold mi in H0. lia. }
  pose proof (every_next n _ _ _ ltac:(lia) E1 E2 LY) as L.
  pose proof (proj2 (year_le_iff c' Hc') ltac:(lia)) as LM.
  assert (CV : civil (year_of cur + n) (month_of cur) (day_of cur)).
  { split; [lia|]. split; [lia|]. apply (dim_not_feb29 (year_of cur)); [|lia].
    rewrite M1, D1. assumption. }
  pose proof (year_ge1 cur Hcur).
  rewrite py_date_valid; [|lia|assumption].
  set (x := ymd2ord (year_of cur + n) (month_of cur) (day_of cur)).
  assert (Y1 : 1 <= year_of cur + n) by lia.
  pose proof (ymd_year _ _ _ Y1 CV) as YY. pose proof (ymd_month _ _ _ Y1 CV) as YM.
  pose proof (ymd_day _ _ _ Y1 CV) as YD. pose proof (ymd2ord_pos _ _ _ Y1 CV) as YP.
  fold x in YY, YM, YD, YP.
  destruct (Z.eq_dec x c') as [E|E]; [congruence|exfalso].
  destruct (Z.eq_dec (year_of cur + n) (year_of c')) as [EY|EY].
  - apply E. apply ord_eq_civil; try lia. unfold mi. lia.
  - assert (cur < x) by (apply ord_lt_mi; try lia; unfold mi; lia).
    assert (x < c').
    { apply ord_lt_mi; try lia. pose proof (month_range c' Hc'). unfold mi. lia. }
    pose proof (G x ltac:(lia)) as GX.
    rewrite YD, YM, D1, M1, YY, !Z.eqb_refl, every_add in GX by (lia || assumption). discriminate.
Qed.

Definition monthday_on (n s d : Z) : bool :=
  every n (month_no s) (month_no d) && (day_of d =? day_of s).

Lemma monthly_loop_to i d y m y' m' x : 1 <= i -> 1 <= y -> 1 <= m <= 12 ->
  (exists j, 1 <= j /\ y' * 12 + m' - 1 = y * 12 + m - 1 + j * i) -> 1 <= m' <= 12 -> y' <= MAXYEAR ->
  date_replace d y' m' = Ok x ->
  (forall k j, 1 <= j -> k = y * 12 + m - 1 + j * i -> k < y' * 12 + m' - 1 ->
     date_replace d (k / 12) (k mod 12 + 1) = Raise ValueError) ->
  exists N, forall F, (N <= F)%nat -> monthly_next_loop F i d y m = Ok x.
Proof.
  intros Hi Hy Hm [j [Hj E]] Hm' HY Hx Hbad.
  remember (Z.to_nat j) as n eqn:En. revert y m j Hy Hm Hj E Hbad En.
  induction n as [|n IH]; intros y m j Hy Hm Hj E Hbad En; [lia|].
  destruct (Z.eq_dec j 1) as [->|J].
  - exists 1%nat. intros F HF. destruct F as [|F]; [lia|]. cbn [monthly_next_loop].
    replace ((y * 12 + m - 1 + i) / 12) with y' by lia.
    replace ((y * 12 + m - 1 + i) mod 12 + 1) with m' by lia.
    rewrite Hx. reflexivity.
  - set (t := y * 12 + m - 1 + i).
    assert (HB : date_replace d (t / 12) (t mod 12 + 1) = Raise ValueError).
    { apply (Hbad t 1); subst t; nia. }
    destruct (IH (t / 12) (t mod 12 + 1) (j - 1)) as [N HN]; try (subst t; lia).
    { intros k j0 A1 A2 A3. apply (Hbad k (j0 + 1)); [lia| |lia]. rewrite A2. subst t. lia. }
    exists (S N). intros F HF. destruct F as [|F]; [lia|]. cbn [monthly_next_loop].
    fold t. rewrite HB. apply HN. lia.
Qed.

Lemma py_date_bad y m d : 1 <= y <= MAXYEAR -> 1 <= m <= 12 -> 1 <= d <= 31 ->
  ~ d <= days_in_month y m -> py_date y m d = Raise ValueError.
Proof.
  intros Y M D H. unfold py_date, c_int, valid_ymd, INT_MIN, INT_MAX, MAXYEAR in *.
  replace (negb _) with false by lia. replace (_ && _) with false by lia. reflexivity.
Qed.

Lemma monthly_next_ok r s stop cur c' :
  1 <= r_interval r -> 1 <= s -> stop <= MAXORD -> s <= cur -> cur < c' -> c' <= stop ->
  monthday_on (r_interval r) s cur = true -> monthday_on (r_interval r) s c' = true ->
  (forall d, cur < d < c' -> monthday_on (r_interval r) s d = false) ->
  exists N, forall F, (N <= F)%nat -> monthly_next F r cur = Ok c'.
Proof.
  intros Hi Hs Hm H1 H2 H3 P1 P2 G. unfold monthly_next, monthday_on in *.
  rewrite !andb_true_iff, !Z.eqb_eq in P1, P2. destruct P1 as [E1 D1]. destruct P2 as [E2 D2].
  rewrite !month_no_mi in *.
  set (n := r_interval r) in *.
  assert (Hcur : 1 <= cur) by lia. assert (Hc' : 1 <= c') by lia.
  pose proof (month_range cur Hcur). pose proof (month_range c' Hc').
  pose proof (day_range cur Hcur). pose proof (day_range c' Hc').
  pose proof (year_ge1 cur Hcur). pose proof (proj2 (year_le_iff c' Hc') ltac:(lia)) as LM.
  assert (LY : mi cur < mi c').
  { destruct (Z_lt_le_dec (mi cur) (mi c')) as [L|L]; [assumption|exfalso].
    pose proof (mi_mono cur c' Hcur ltac:(lia)) as MM.
    pose proof (ord_eq_civil cur c' Hcur Hc'). lia. }
  pose proof (proj1 (every_spec n (mi s) (mi cur) ltac:(lia)) E1) as [k1 K1].
  pose proof (proj1 (every_spec n (mi s) (mi c') ltac:(lia)) E2) as [k2 K2].
  pose proof (dim_range (year_of cur) (month_of cur)).
  apply (monthly_loop_to n cur _ _ (year_of c') (month_of c')); try lia.
  - exists (k2 - k1). unfold mi in *. nia.
  - unfold date_replace. rewrite D1, <- D2. rewrite py_date_valid.
    + f_equal. apply ord_roundtrip. assumption.
    + pose proof (year_ge1 c' Hc'). lia.
    + apply ord_civil; assumption.
  - intros k j J K L. fold (mi cur) in K. fold (mi c') in L.
    assert (mi cur < k) by nia.
    assert (1 <= k / 12 <= MAXYEAR).
    { unfold mi in *. split; [lia|]. unfold MAXYEAR in *. lia. }
    unfold date_replace. apply py_date_bad; try lia.
    intros DD.
    destruct (month_start_add k (day_of cur)) as (X1 & X2 & X3);
      [lia|split; lia|].
    set (x := month_start k + day_of cur - 1) in *.
    assert (cur < x) by (apply ord_lt_mi; lia).
    assert (x < c') by (apply ord_lt_mi; lia).
    pose proof (G x ltac:(lia)) as GX. rewrite month_no_mi, X2, X3 in GX.
    rewrite D1, Z.eqb_refl, andb_true_r in GX.
    assert (every n (mi s) k = true); [|congruence].
    apply every_spec; [lia|]. exists (k1 + j). lia.
Qed.

(** ** n-th weekdays *)

(** first day with weekday [wd] in the month number [k] *)
Definition fw (k wd : Z) : Z := month_start k + (wd - weekday (month_start k)) mod 7.

Lemma fw_props k wd : 12 <= k -> 0 <= wd <= 6 ->
  1 <= fw k wd /\ mi (fw k wd) = k /\ 1 <= day_of (fw k wd) <= 7 /\ weekday (fw k wd) = wd.
Proof.
  intros Hk Hw. unfold fw.
  set (j := (wd - weekday (month_start k)) mod 7).
  assert (0 <= j < 7) by (subst j; lia).
  pose proof (dim_range (k / 12) (k mod 12 + 1)).
  destruct (month_start_add k (j + 1)) as (X1 & X2 & X3); [lia|lia|].
  replace (month_start k + (j + 1) - 1) with (month_start k + j) in * by lia.
  repeat split; try lia.
  subst j. unfold weekday. lia.
Qed.

Lemma fw_unique x : 1 <= x -> day_of x <= 7 -> x = fw (mi x) (weekday x).
Proof.
  intros Hx Hd.
  assert (12 <= mi x) by (pose proof (year_ge1 x Hx); pose proof (month_range x Hx); unfold mi; lia).
  destruct (fw_props (mi x) (weekday x)) as (F1 & F2 & F3 & F4); [lia|apply weekday_range|].
  pose proof (day_range x Hx).
  pose proof (ord_diff_day x (fw (mi x) (weekday x)) Hx F1 ltac:(lia)) as E.
  remember (fw (mi x) (weekday x)) as z. unfold weekday in F4. lia.
Qed.

Lemma fw_lt k k' wd : 12 <= k -> k < k' -> 0 <= wd <= 6 -> fw k wd < fw k' wd.
Proof.
  intros H1 H2 H3. destruct (fw_props k wd) as (A & B & _); try lia.
  destruct (fw_props k' wd) as (A' & B' & _); try lia. apply ord_lt_mi; lia.
Qed.

Lemma find_first_day_ok k wd n day : 12 <= k -> k / 12 <= MAXYEAR -> 0 <= wd <= 6 ->
  (1 <= day) -> Z.of_nat n + day = 8 ->
  day <= (wd - weekday (month_start k)) mod 7 + 1 ->
  find_first_day n (k / 12) (k mod 12 + 1) wd day
  = Ok ((wd - weekday (month_start k)) mod 7 + 1).
Proof.
  intros Hk Hy Hw. revert day. induction n as [|n IH]; intros day Hd En Hle.
  - lia.
  - cbn [find_first_day].
    pose proof (dim_range (k / 12) (k mod 12 + 1)).
    rewrite py_date_valid; [|unfold MAXYEAR in *; lia|split; lia].
    cbn [rbind].
    assert (E : ymd2ord (k / 12) (k mod 12 + 1) day = month_start k + day - 1)
      by apply ymd2ord_month_start.
    rewrite E.
    destruct (weekday (month_start k + day - 1) =? wd) eqn:W.
    + f_equal. unfold weekday in *. lia.
    + apply IH; [lia|lia|]. unfold weekday in *. lia.
Qed.

Lemma monthindex_ok k index wd a b :
  (1 <= index /\ a = 0 /\ b = index - 1) \/ (index < 0 /\ a = 1 /\ b = index) ->
  12 <= k -> 0 <= wd <= 6 -> fw (k + a) wd <= MAXORD -> 1 <= fw (k + a) wd + 7 * b <= MAXORD ->
  monthindex (k / 12) (k mod 12 + 1) index wd = Ok (fw (k + a) wd + 7 * b).
Proof.
  intros H Hk Hw Hm Hv.
  destruct (fw_props (k + a) wd) as (F1 & F2 & F3 & F4); [lia|lia|].
  pose proof (proj2 (year_le_iff _ F1) Hm) as FY.
  assert (Y : (k + a) / 12 <= MAXYEAR).
  { destruct (mi_div _ F1) as [A _]. rewrite F2 in A. lia. }
  unfold monthindex.
  assert (E : (if index <? 0
     then (k / 12 + (k mod 12 + 1) / 12, (k mod 12 + 1) mod 12 + 1, index + 1)
     else (k / 12, k mod 12 + 1, index)) = ((k + a) / 12, (k + a) mod 12 + 1, b + 1)).
  { destruct H as [(H & -> & ->)|(H & -> & ->)].
    - replace (index <? 0) with false by lia. rewrite Z.add_0_r. f_equal; lia.
    - replace (index <? 0) with true by lia. f_equal; f_equal; lia. }
  rewrite E. rewrite find_first_day_ok; try lia. cbn [rbind].
  pose proof (dim_range ((k + a) / 12) ((k + a) mod 12 + 1)).
  set (j := (wd - weekday (month_start (k + a))) mod 7) in *.
  assert (0 <= j < 7) by (subst j; lia).
  rewrite py_date_valid; [|unfold MAXYEAR in *; lia|split; lia]. cbn [rbind].
  assert (E2 : ymd2ord ((k + a) / 12) ((k + a) mod 12 + 1) (j + 1) = fw (k + a) wd).
  { unfold fw. fold j. rewrite ymd2ord_month_start. lia. }
  rewrite E2. unfold date_add. replace (b + 1 - 1) with b by lia.
  replace (fw (k + a) wd + b * 7) with (fw (k + a) wd + 7 * b) by lia.
  replace (_ && _) with true by lia. reflexivity.
Qed.

(** the days visited by the index loops *)
Definition index_on (n wd a b : Z) (s d : Z) : bool :=
  (weekday d =? wd) && (1 <=? d - 7 * b) && (day_of (d - 7 * b) <=? 7)
  && every n (mi s) (mi (d - 7 * b) - a).

Lemma index_on_val n wd a b s k : 12 <= k + a -> 0 <= wd <= 6 ->
  index_on n wd a b s (fw (k + a) wd + 7 * b) = every n (mi s) k.
Proof.
  intros Hk Hw. destruct (fw_props (k + a) wd) as (F1 & F2 & F3 & F4); [lia|lia|].
  unfold index_on. replace (fw (k + a) wd + 7 * b - 7 * b) with (fw (k + a) wd) by lia.
  rewrite F2. replace (k + a - a) with k by lia.
  replace (weekday (fw (k + a) wd + 7 * b)) with wd.
  - rewrite Z.eqb_refl. replace (1 <=? _) with true by lia. replace (_ <=? 7) with true by lia. reflexivity.
  - remember (fw (k + a) wd) as z. unfold weekday in *. lia.
Qed.

Lemma index_on_inv n wd a b s d : index_on n wd a b s d = true ->
  let k := mi (d - 7 * b) - a in
  12 <= k + a /\ every n (mi s) k = true /\ d = fw (k + a) wd + 7 * b.
Proof.
  unfold index_on. rewrite !andb_true_iff, Z.eqb_eq, !Z.leb_le.
  intros [[[W D1] D2] E]. set (k := mi (d - 7 * b) - a) in *. split.
  - subst k. pose proof (year_ge1 _ D1). pose proof (month_range _ D1). unfold mi. lia.
  - split; [exact E|]. subst k. replace (mi (d - 7 * b) - a + a) with (mi (d - 7 * b)) by lia.
    pose proof (fw_unique _ D1 D2) as U.
    assert (weekday (d - 7 * b) = wd) by (unfold weekday in *; lia).
    rewrite H in U. lia.
Qed.

Lemma index_loop_exact r ed s stop wd index a b :
  let on := index_on (r_interval r) wd a b in
  (1 <= index /\ a = 0 /\ b = index - 1) \/ (index < 0 /\ a = 1 /\ b = index) ->
  1 <= r_interval r -> 0 <= wd <= 6 ->
  until_is_date r -> 1 <= s -> s <= stop -> stop <= MAXORD -> stop - 7 * b <= MAXORD ->
  on s stop = true -> over on r ed s stop = true ->
  forall n k, let cur := fw (k + a) wd + 7 * b in
  n = Z.to_nat (stop - cur) -> 12 <= k -> every (r_interval r) (mi s) k = true -> s <= cur <= stop ->
  forall F, (S n <= F)%nat ->
    index_loop F r ed wd index (k / 12) (k mod 12 + 1) (rank on s cur)
    = (filter (sel_ed on r ed s) (days cur stop), GStop).
Proof.
  intros on Hi Hint Hw U Hs1 Hs Hm1 Hm2 Pstop Ostop n.
  induction n as [n IH] using lt_wf_ind. intros k cur En Hk E Hc F HF.
  destruct F as [|F]; [lia|]. cbn [index_loop].
  rewrite (monthindex_ok k index wd a b) by (assumption || (subst cur; lia)).
  fold cur. rewrite stop_check_over by assumption.
  assert (Pcur : on s cur = true).
  { subst on cur. rewrite index_on_val by lia. exact E. }
  destruct (over on r ed s cur) eqn:O.
  - now rewrite filter_over by (lia || assumption).
  - assert (cur < stop).
    { destruct (Z.eq_dec cur stop) as [X|]; [congruence|lia]. }
    destruct (least_after (on s) cur stop) as (c' & C1 & C2 & C3); [lia|assumption|].
    destruct (index_on_inv _ _ _ _ _ _ C2) as (K1 & K2 & K3).
    set (k' := mi (c' - 7 * b) - a) in *.
    assert (KK : k < k').
    { destruct (Z_lt_le_dec k k') as [L|L]; [assumption|exfalso].
      destruct (Z.eq_dec k k') as [X|X]; [subst cur; rewrite X in *; lia|].
      pose proof (fw_lt (k' + a) (k + a) wd). subst cur. lia. }
    pose proof (every_next (r_interval r) _ _ _ ltac:(lia) E K2 KK) as L.
    assert (k + r_interval r = k').
    { destruct (Z.eq_dec (k + r_interval r) k') as [X|X]; [assumption|exfalso].
      assert (cur < fw (k + r_interval r + a) wd + 7 * b).
      { subst cur. pose proof (fw_lt (k + a) (k + r_interval r + a) wd). lia. }
      assert (fw (k + r_interval r + a) wd + 7 * b < c').
      { rewrite K3. pose proof (fw_lt (k + r_interval r + a) (k' + a) wd). lia. }
      pose proof (C3 (fw (k + r_interval r + a) wd + 7 * b) ltac:(lia)) as CC.
      subst on. rewrite index_on_val in CC by lia.
      rewrite every_add in CC by (lia || assumption). discriminate. }
    replace (k / 12 * 12 + (k mod 12 + 1) + r_interval r - 1) with k' by lia.
    rewrite <- (rank_next on s cur c') by (assumption || lia).
    pose proof (IH (Z.to_nat (stop - c')) ltac:(lia) k') as IH'.
    cbv zeta in IH'. rewrite <- K3 in IH'.
    rewrite IH' by (assumption || lia).
    rewrite (days_cons cur) by lia. cbn [filter].
    rewrite sel_ed_go, Pcur by assumption. rewrite excepted_is.
    rewrite (filter_days_skip _ (cur + 1) c' stop); [|lia|].
    + destruct (is_exception r cur); reflexivity.
    + intros d Hd. unfold sel_ed, selected. rewrite C3 by lia. reflexivity.
Qed.
