(** Property theorems C164: which day the k-th repetition of a series falls on. *)
From Verif Require Import Base PyDate DateFacts Recurrent SpecRecur RecurProofs RecurExact RecurMain RecurOrder RecurSound RecurMisc.
From Coq Require Import ZifyBool Sorting.Sorted.
Ltac Zify.zify_post_hook ::= Z.div_mod_to_equations.
Local Opaque ord2ymd year_of month_of day_of ymd2ord days_in_month is_leap.

(** ** the day of the k-th repetition, counted from 0, computed directly *)

(** the weekdays a weekly rule repeats on, Monday first, and how many of them come
    before the start's *)
Definition chosen (r : rule) (s w : Z) : bool := (w =? weekday s) || existsb (Z.eqb w) (r_weekdays r).
Definition weekdays_of (r : rule) (s : Z) : list Z := filter (chosen r s) [0; 1; 2; 3; 4; 5; 6].
Definition earlier (r : rule) (s : Z) : Z :=
  Z.of_nat (List.length (filter (fun w => w <? weekday s) (weekdays_of r s))).

(** the first day of the month number [m] that is a weekday [w] *)
Definition first_weekday (m w : Z) : Z :=
  let f := ymd2ord (m / 12) (m mod 12 + 1) 1 in f + (w - weekday f) mod 7.

Definition kth_date (r : rule) (s k : Z) : Z :=
  let n := r_interval r in
  match r_kind r with
  | KNo => s
  | KBasic | KDaily => s + k * n
  | KYearly => ymd2ord (year_of s + k * n) (month_of s) (day_of s)
  | KWeekly =>
      let i := earlier r s + k in let m := Z.of_nat (List.length (weekdays_of r s)) in
      (s - weekday s) + 7 * (n * (i / m)) + nth (Z.to_nat (i mod m)) (weekdays_of r s) 0
  | KMonthly =>
      let m := month_no s + k * n in
      if String.eqb (r_monthly r) "monthday" then ymd2ord (m / 12) (m mod 12 + 1) (day_of s)
      else if String.eqb (r_monthly r) "weekday" then first_weekday m (weekday s) + 7 * nth_weekday s
      else first_weekday (m + 1) (weekday s) - 7 * (nth_last_weekday s + 1)
  end.

(** no month and no year is left out for want of the day *)
Definition always_there (r : rule) (s : Z) : Prop :=
  (r_kind r = KMonthly -> r_monthly r = "monthday"%string -> day_of s <= 28)
  /\ (r_kind r = KYearly -> ~ (month_of s = 2 /\ day_of s = 29)).

(** ** how many days come before, when they are listed one after the other *)

Definition lists (on : Z -> Z -> bool) (s : Z) (val : Z -> Z) : Prop :=
  val 0 = s /\ (forall k, 0 <= k -> val k < val (k + 1))
  /\ forall d, s <= d -> (on s d = true <-> exists k, 0 <= k /\ d = val k).

Lemma lists_mono on s val : lists on s val -> forall j k, 0 <= j -> j < k -> val j < val k.
Proof.
  intros (_ & St & _) j k Hj Hk.
  assert (G : forall i, 0 <= i -> val j < val (j + 1 + i)).
  { apply natlike_ind; [rewrite Z.add_0_r; now apply St|]. intros x Hx IH. specialize (St (j + 1 + x) ltac:(lia)).
    replace (j + 1 + Z.succ x) with (j + 1 + x + 1) by lia. lia. }
  specialize (G (k - j - 1) ltac:(lia)). now replace (j + 1 + (k - j - 1)) with k in G by lia.
Qed.

Lemma lists_ge on s val : lists on s val -> forall k, 0 <= k -> s <= val k.
Proof.
  intros L k Hk. destruct (Z.eq_dec k 0) as [->|N]; [destruct L as [-> _]; lia|].
  pose proof (lists_mono on s val L 0 k ltac:(lia) ltac:(lia)). destruct L as [L _]. lia.
Qed.

Lemma lists_rank on s val : lists on s val -> forall k, 0 <= k -> rank on s (val k) = k.
Proof.
  intros L. pose proof (lists_mono on s val L) as M. pose proof (lists_ge on s val L) as G. destruct L as (Z0 & St & On).
  apply natlike_ind; [rewrite Z0; apply rank_start|]. intros k Hk IH.
  replace (Z.succ k) with (k + 1) by lia. rewrite (rank_next on s (val k) (val (k + 1))).
  - lia.
  - now apply G.
  - now apply St.
  - apply On; [now apply G|]. now exists k.
  - intros d Hd. destruct (on s d) eqn:E; [|reflexivity]. exfalso. pose proof (G k Hk).
    apply On in E as (j & Hj & ->); [|lia]. destruct (Z_lt_le_dec j (k + 1)) as [L|L].
    + destruct (Z_lt_le_dec j k) as [L'|L']; [pose proof (M j k ltac:(lia) ltac:(lia)); lia|]. assert (j = k) by lia. subst j. lia.
    + destruct (Z.eq_dec j (k + 1)) as [->|N]; [lia|]. pose proof (M (k + 1) j ltac:(lia) ltac:(lia)). lia.
Qed.

(** ** every kind of rule *)

Lemma lists_daily r s : r_kind r = KDaily \/ r_kind r = KBasic -> 1 <= r_interval r -> lists (code_on r) s (kth_date r s).
Proof.
  intros K Hn. assert (E : forall k, kth_date r s k = s + k * r_interval r) by (intros; unfold kth_date; destruct K as [-> | ->]; reflexivity).
  assert (C : forall d, code_on r s d = every (r_interval r) s d) by (intros; unfold code_on, on_day; destruct K as [-> | ->]; reflexivity).
  split; [rewrite E; lia|]. split; [intros k Hk; rewrite !E; lia|].
  intros d Hd. rewrite C, every_spec by lia. split; intros [k H].
  - exists k. rewrite E. split; [|exact H]. nia.
  - exists k. now rewrite E in H.
Qed.

Lemma lists_yearly r s : r_kind r = KYearly -> 1 <= r_interval r -> 1 <= s -> ~ (month_of s = 2 /\ day_of s = 29) -> lists (code_on r) s (kth_date r s).
Proof.
  intros K Hn Hs NF. set (n := r_interval r) in *. pose proof (year_ge1 s Hs) as Y. pose proof (ord_civil s Hs) as CS.
  assert (E : forall k, kth_date r s k = ymd2ord (year_of s + k * n) (month_of s) (day_of s)) by (intros; unfold kth_date; now rewrite K).
  assert (CV : forall y, civil y (month_of s) (day_of s)).
  { intros y. destruct CS as [C1 C2]. split; [exact C1|]. split; [lia|]. apply (dim_not_feb29 (year_of s)); [exact NF|lia]. }
  assert (C : forall d, code_on r s d = (day_of d =? day_of s) && (month_of d =? month_of s) && every n (year_of s) (year_of d))
    by (intros; unfold code_on, on_day; rewrite K; reflexivity).
  split; [rewrite E, Z.mul_0_l, Z.add_0_r; now apply ord_roundtrip|]. split.
  - intros k Hk. rewrite !E. assert (P : 0 <= k * n) by (apply Z.mul_nonneg_nonneg; lia).
    apply year_lt_ord; [apply ymd2ord_pos; [lia|apply CV]|apply ymd2ord_pos; [lia|apply CV]|]. rewrite !ymd_year by (lia || apply CV). lia.
  - intros d Hd. rewrite C, !andb_true_iff, !Z.eqb_eq, every_spec by lia. split.
    + intros [[D M] [k Yk]]. exists k. pose proof (year_mono s d Hs Hd) as YM. rewrite Yk in YM. split; [nia|].
      rewrite E, <- Yk, <- D, <- M. symmetry. apply ord_roundtrip. lia.
    + intros [k [Hk ->]]. assert (P : 0 <= k * n) by (apply Z.mul_nonneg_nonneg; lia). rewrite E, ymd_day, ymd_month, ymd_year by (lia || apply CV).
      split; [split; reflexivity|now exists k].
Qed.

Lemma lists_monthday r s : r_kind r = KMonthly -> r_monthly r = "monthday"%string -> 1 <= r_interval r -> 1 <= s -> day_of s <= 28 ->
  lists (code_on r) s (kth_date r s).
Proof.
  intros K KM Hn Hs D28. set (n := r_interval r) in *. pose proof (mi_ge12 s Hs) as M12. pose proof (day_range s Hs) as DR.
  assert (E : forall k, kth_date r s k = month_start (mi s + k * n) + day_of s - 1).
  { intros k. unfold kth_date. rewrite K, KM. cbn [String.eqb Ascii.eqb Bool.eqb]. now rewrite month_no_mi, ymd2ord_month_start. }
  assert (C : forall d, code_on r s d = every n (mi s) (mi d) && (day_of d =? day_of s)).
  { intros d. unfold code_on, on_day. rewrite K, KM. cbn [String.eqb Ascii.eqb Bool.eqb]. now rewrite !month_no_mi. }
  assert (V : forall k, 0 <= k -> 1 <= kth_date r s k /\ mi (kth_date r s k) = mi s + k * n /\ day_of (kth_date r s k) = day_of s).
  { intros k Hk. rewrite E. assert (P : 0 <= k * n) by (apply Z.mul_nonneg_nonneg; lia). apply month_start_add; [lia|].
    pose proof (dim_range ((mi s + k * n) / 12) ((mi s + k * n) mod 12 + 1)). lia. }
  split; [rewrite E, Z.mul_0_l, Z.add_0_r, month_start_of by exact Hs; lia|]. split.
  - intros k Hk. destruct (V k Hk) as (V1 & V2 & _). destruct (V (k + 1) ltac:(lia)) as (W1 & W2 & _). apply ord_lt_mi; lia.
  - intros d Hd. rewrite C, andb_true_iff, Z.eqb_eq, every_spec by lia. split.
    + intros [[k Mk] D]. exists k. pose proof (mi_mono s d Hs Hd) as MM. rewrite Mk in MM. assert (Hk : 0 <= k) by nia. split; [exact Hk|].
      destruct (V k Hk) as (V1 & V2 & V3). apply ord_eq_civil; lia.
    + intros [k [Hk ->]]. destruct (V k Hk) as (V1 & V2 & V3). split; [exists k; exact V2|exact V3].
Qed.

Lemma lists_index r s a b : 1 <= r_interval r -> 1 <= s -> 0 <= a -> s = fw (mi s + a) (weekday s) + 7 * b ->
  (forall d, s <= d -> code_on r s d = index_on (r_interval r) (weekday s) a b s d) ->
  (forall k, kth_date r s k = fw (mi s + k * r_interval r + a) (weekday s) + 7 * b) -> lists (code_on r) s (kth_date r s).
Proof.
  intros Hn Hs Ha S0 C E. set (n := r_interval r) in *. pose proof (mi_ge12 s Hs) as M12. pose proof (weekday_range s) as WR.
  split; [rewrite E, Z.mul_0_l, Z.add_0_r; lia|]. split.
  - intros k Hk. rewrite !E. assert (P : 0 <= k * n) by (apply Z.mul_nonneg_nonneg; lia).
    pose proof (fw_lt (mi s + k * n + a) (mi s + (k + 1) * n + a) (weekday s)). lia.
  - intros d Hd. rewrite C by exact Hd. split.
    + intros I. apply index_on_inv in I. cbv zeta in I. set (m := mi (d - 7 * b) - a) in *. destruct I as (I1 & I2 & I3).
      apply every_spec in I2 as [k Mk]; [|lia]. exists k. rewrite E, <- Mk. split; [|exact I3].
      destruct (Z_lt_le_dec k 0) as [L|L]; [|exact L]. exfalso.
      assert (k * n < 0) by (apply Z.mul_neg_pos; lia). pose proof (fw_lt (m + a) (mi s + a) (weekday s) ltac:(lia) ltac:(lia) ltac:(lia)). lia.
    + intros [k [Hk ->]]. assert (P : 0 <= k * n) by (apply Z.mul_nonneg_nonneg; lia). rewrite E, index_on_val by lia.
      apply every_spec; [lia|]. now exists k.
Qed.

Lemma first_weekday_fw m w : first_weekday m w = fw m w.
Proof. reflexivity. Qed.

Lemma lists_weekday r s : r_kind r = KMonthly -> r_monthly r = "weekday"%string -> 1 <= r_interval r -> 1 <= s -> lists (code_on r) s (kth_date r s).
Proof.
  intros K KM Hn Hs. apply (lists_index r s 0 (nth_weekday s)); try assumption; try lia.
  - rewrite Z.add_0_r. now apply start_is_fw.
  - intros d Hd. unfold code_on. rewrite K, KM. cbn [String.eqb Ascii.eqb Bool.eqb]. now apply spill_weekday_on.
  - intros k. unfold kth_date. rewrite K, KM. cbn [String.eqb Ascii.eqb Bool.eqb]. now rewrite month_no_mi, first_weekday_fw, Z.add_0_r.
Qed.

Lemma lists_last r s : r_kind r = KMonthly -> r_monthly r = "lastweekday"%string -> 1 <= r_interval r -> 1 <= s -> lists (code_on r) s (kth_date r s).
Proof.
  intros K KM Hn Hs. apply (lists_index r s 1 (- (nth_last_weekday s + 1))); try assumption; try lia.
  - now apply start_is_fw_last.
  - intros d Hd. unfold code_on. rewrite K, KM. cbn [String.eqb Ascii.eqb Bool.eqb]. now apply spill_last_on.
  - intros k. unfold kth_date. rewrite K, KM. cbn [String.eqb Ascii.eqb Bool.eqb]. rewrite month_no_mi, first_weekday_fw. lia.
Qed.

(** the chosen weekdays, in order *)
Lemma seven_sorted : StronglySorted Z.lt [0; 1; 2; 3; 4; 5; 6].
Proof. repeat constructor. Qed.
Lemma filter_sorted (p : Z -> bool) l : StronglySorted Z.lt l -> StronglySorted Z.lt (filter p l).
Proof.
  induction 1 as [|x l S IH A]; [constructor|]. cbn [filter]. destruct (p x); [|exact IH]. constructor; [exact IH|].
  rewrite Forall_forall in *. intros y Hy. apply filter_In in Hy as [Hy _]. now apply A.
Qed.
Lemma sorted_nth l : StronglySorted Z.lt l -> forall i j, (i < j < List.length l)%nat -> nth i l 0 < nth j l 0.
Proof.
  induction 1 as [|x l S IH A]; intros i j H; [cbn in H; lia|]. cbn [List.length] in H. destruct j as [|j]; [lia|]. cbn [nth].
  destruct i as [|i]; [rewrite Forall_forall in A; apply A, nth_In; lia|]. apply IH. lia.
Qed.
Lemma sorted_filter_lt l w : StronglySorted Z.lt l -> In w l -> nth (List.length (filter (fun x => x <? w) l)) l 0 = w
  /\ (List.length (filter (fun x => (x <? w)%Z) l) < List.length l)%nat.
Proof.
  induction 1 as [|x l S IH A]; intros I; [contradiction|]. rewrite Forall_forall in A. destruct I as [->|I].
  - cbn [filter]. rewrite Z.ltb_irrefl. replace (filter (fun x => x <? w) l) with (@nil Z); [cbn; split; [reflexivity|lia]|].
    symmetry. apply filter_none. intros y Hy. specialize (A y Hy). lia.
  - destruct (IH I) as [E L]. cbn [filter]. specialize (A w I). replace (x <? w) with true by lia. cbn [List.length nth]. split; [exact E|lia].
Qed.

Lemma lists_weekly r s : r_kind r = KWeekly -> 1 <= r_interval r -> lists (code_on r) s (kth_date r s).
Proof.
  intros K Hn. set (n := r_interval r) in *. set (W := weekdays_of r s). set (m := Z.of_nat (List.length W)). set (i0 := earlier r s).
  assert (E : forall k, kth_date r s k = (s - weekday s) + 7 * (n * ((i0 + k) / m)) + nth (Z.to_nat ((i0 + k) mod m)) W 0)
    by (intros; unfold kth_date; now rewrite K).
  assert (SW : StronglySorted Z.lt W) by apply filter_sorted, seven_sorted.
  pose proof (weekday_range s) as WR.
  assert (In7 : forall w, 0 <= w <= 6 -> In w [0; 1; 2; 3; 4; 5; 6]) by (intros w Hw; cbn; lia).
  assert (IW : In (weekday s) W) by (apply filter_In; split; [now apply In7|unfold chosen; now rewrite Z.eqb_refl]).
  destruct (sorted_filter_lt W (weekday s) SW IW) as [N0 L0].
  assert (N0' : nth (Z.to_nat i0) W 0 = weekday s) by (unfold i0, earlier; now rewrite Nat2Z.id).
  assert (I0 : 0 <= i0 < m) by (unfold i0, earlier, m; fold W; lia). clear N0 L0.
  assert (NR : forall t, 0 <= t < m -> 0 <= nth (Z.to_nat t) W 0 <= 6 /\ chosen r s (nth (Z.to_nat t) W 0) = true).
  { intros t Ht. assert (I : In (nth (Z.to_nat t) W 0) W) by (apply nth_In; unfold m in Ht; lia). apply filter_In in I as [I1 I2].
    split; [|exact I2]. generalize dependent (nth (Z.to_nat t) W 0). intros v I1 _. clear - I1. cbn in I1. lia. }
  assert (NM : forall t t', 0 <= t < t' -> t' < m -> nth (Z.to_nat t) W 0 < nth (Z.to_nat t') W 0).
  { intros t t' H H'. apply (sorted_nth W SW). unfold m in H'. lia. }
  assert (CD : forall d, code_on r s d = every n (week_no s) (week_no d) && chosen r s (weekday d))
    by (intros; unfold code_on, on_day; now rewrite K).
  assert (MP : forall k, 0 <= k -> 0 <= (i0 + k) mod m < m /\ i0 + k = m * ((i0 + k) / m) + (i0 + k) mod m /\ 0 <= (i0 + k) / m).
  { intros k Hk. split; [apply Z.mod_pos_bound; lia|]. split; [apply Z.div_mod; lia|apply Z.div_pos; lia]. }
  assert (WK : forall k, 0 <= k -> week_no (kth_date r s k) = week_no s + (i0 + k) / m * n /\ weekday (kth_date r s k) = nth (Z.to_nat ((i0 + k) mod m)) W 0).
  { intros k Hk. rewrite E. destruct (MP k Hk) as (M1 & _ & _). destruct (NR _ M1) as [N1 _].
    set (t := nth (Z.to_nat ((i0 + k) mod m)) W 0) in *. replace ((i0 + k) / m * n) with (n * ((i0 + k) / m)) by apply Z.mul_comm.
    set (q := n * ((i0 + k) / m)). unfold week_no, weekday. clearbody t q. clear - N1. lia. }
  split.
  { rewrite E, Z.add_0_r, Z.div_small, Z.mod_small by lia. rewrite N0'. lia. }
  split.
  - intros k Hk. rewrite !E. destruct (MP k Hk) as (A1 & A2 & A3). destruct (MP (k + 1) ltac:(lia)) as (B1 & B2 & B3).
    destruct (NR _ A1) as [A4 _]. destruct (NR _ B1) as [B4 _].
    remember ((i0 + k) / m) as q eqn:Eq. remember ((i0 + k) mod m) as t eqn:Et. remember ((i0 + (k + 1)) / m) as q' eqn:Eq'. remember ((i0 + (k + 1)) mod m) as t' eqn:Et'.
    clear Eq Et Eq' Et'. destruct (Z.lt_trichotomy q q') as [L|[L|L]].
    + assert (n * q + n <= n * q') by nia. lia.
    + subst q'. pose proof (NM t t' ltac:(lia) ltac:(lia)). lia.
    + exfalso. nia.
  - intros d Hd. rewrite CD, andb_true_iff, every_spec by lia. split.
    + intros [[j Wj] Ch]. pose proof (weekday_range d) as WD.
      assert (ID : In (weekday d) W) by (apply filter_In; split; [now apply In7|exact Ch]).
      apply (In_nth _ _ 0) in ID as (i & Hi & Ni).
      assert (Hi' : 0 <= Z.of_nat i < m) by (unfold m; lia). set (z := Z.of_nat i) in *. assert (Nz : nth (Z.to_nat z) W 0 = weekday d) by (unfold z; now rewrite Nat2Z.id). clearbody z. clear i Hi Ni.
      assert (Hj : 0 <= j). { assert (week_no s <= week_no d) by (unfold week_no, weekday; lia). nia. }
      assert (Hk : 0 <= m * j + z - i0).
      { destruct (Z.eq_dec j 0) as [->|J]; [|nia]. destruct (Z_lt_le_dec z i0) as [L|L]; [|lia]. exfalso.
        pose proof (NM z i0 ltac:(lia) ltac:(lia)) as Q. rewrite Nz, N0' in Q. revert Wj Q Hd. clear. unfold week_no, weekday. lia. }
      exists (m * j + z - i0). split; [exact Hk|]. rewrite E. replace (i0 + (m * j + z - i0)) with (m * j + z) by lia.
      rewrite <- (Z.div_unique (m * j + z) m j z) by lia. rewrite <- (Z.mod_unique (m * j + z) m j z) by lia. rewrite Nz.
      replace (n * j) with (j * n) by apply Z.mul_comm. set (q := j * n) in *. clearbody q. revert Wj. clear. unfold week_no, weekday. lia.
    + intros [k [Hk ->]]. destruct (WK k Hk) as [W1 W2]. split; [exists ((i0 + k) / m); exact W1|]. rewrite W2. apply NR. apply (MP k Hk).
Qed.

Lemma lists_all r s : valid_rule r -> r_kind r <> KNo -> 1 <= s -> always_there r s -> lists (code_on r) s (kth_date r s).
Proof.
  intros V K Hs [A1 A2]. destruct (validate_inv r V) as (Hi & _ & HM & _). destruct (r_kind r) eqn:KK; try congruence.
  - apply lists_daily; [now right|lia].
  - apply lists_daily; [now left|lia].
  - now apply lists_yearly; [|lia| |apply A2].
  - now apply lists_weekly; [|lia].
  - destruct (HM eq_refl) as [M|[M|M]]; [now apply lists_monthday; [| |lia| |apply A1]|now apply lists_weekday; [| |lia|]|now apply lists_last; [| |lia|]].
Qed.

(** ** no end date is the same as the last day there is *)

Lemma date_add_max d n x : date_add d n = Ok x -> x <= MAXORD.
Proof. unfold date_add. destruct (_ && _) eqn:E; [|discriminate]. intros H. injection H as <-. lia. Qed.
Lemma stop_max r cur cnt : cur <= MAXORD -> stop_check (Some MAXORD) r cur cnt = stop_check None r cur cnt.
Proof. intros H. unfold stop_check. now replace (MAXORD <? cur) with false by lia. Qed.

Lemma basic_max next r : forward next -> forall F cur cnt, 1 <= cur <= MAXORD -> basic_loop F next r (Some MAXORD) cur cnt = basic_loop F next r None cur cnt.
Proof.
  intros Hn F. induction F as [|F IH]; intros cur cnt Hc; cbn [basic_loop]; [reflexivity|]. rewrite stop_max by lia.
  destruct (stop_check None r cur cnt) as [[|]|e|]; try reflexivity. destruct (next cur) as [c|e|] eqn:E; try reflexivity.
  destruct (Hn _ _ (proj1 Hc) E). now rewrite IH by lia.
Qed.
Lemma weekly_max r wds s : forall F cur cnt, cur <= MAXORD -> weekly_loop F r wds (Some MAXORD) s cur cnt = weekly_loop F r wds None s cur cnt.
Proof.
  induction F as [|F IH]; intros cur cnt Hc; cbn [weekly_loop]; [reflexivity|]. rewrite stop_max by lia.
  destruct (stop_check None r cur cnt) as [[|]|e|]; try reflexivity. destruct (weekspan s cur); try reflexivity. destruct (_ =? 0); [reflexivity|].
  destruct (date_add cur 1) as [c|e|] eqn:E; try reflexivity. apply date_add_max in E. now rewrite IH.
Qed.
Lemma index_max r wd i : forall F y m cnt, index_loop F r (Some MAXORD) wd i y m cnt = index_loop F r None wd i y m cnt.
Proof.
  induction F as [|F IH]; intros y m cnt; cbn [index_loop]; [reflexivity|]. destruct (monthindex y m i wd) as [x|e|] eqn:E; try reflexivity.
  rewrite stop_max; [now rewrite IH|]. unfold monthindex in E. destruct (if i <? 0 then _ else _) as [[y' m'] i'].
  destruct (find_first_day _ _ _ _ _); try discriminate. cbn [rbind] in E. destruct (py_date _ _ _); try discriminate. cbn [rbind] in E. now apply date_add_max in E.
Qed.

Lemma apply_max F r dt : 1 <= r_interval r -> r_kind r <> KNo -> 1 <= dt_date dt <= MAXORD ->
  apply F r dt (Some (VDate MAXORD)) = apply F r dt None.
Proof.
  intros Hi K Hs. rewrite (apply_unfold F r dt (Some MAXORD) K : apply F r dt (Some (VDate MAXORD)) = _).
  rewrite (apply_unfold F r dt None K : apply F r dt None = _). destruct (r_kind r); try reflexivity.
  - apply basic_max; [|exact Hs]. intros d c Hd. now apply basic_next_gt.
  - apply basic_max; [|exact Hs]. intros d c Hd. now apply basic_next_gt.
  - apply basic_max; [|exact Hs]. intros d c Hd. now apply yearly_next_gt.
  - apply weekly_max. lia.
  - destruct (_ =? _)%string; [|destruct (_ =? _)%string; [|destruct (_ =? _)%string; [|reflexivity]]].
    + apply basic_max; [|exact Hs]. intros d c Hd. now apply monthly_next_gt.
    + apply index_max.
    + apply index_max.
Qed.

(** ** the dates are the k-th ones *)

(** the last day that is asked for: with no end date, the last one there is *)
Definition last_day (ed : option Z) : Z := match ed with Some e => e | None => MAXORD end.

Lemma sound_last F r dt ed l : r_kind r <> KNo -> valid_rule r -> 1 <= dt_date dt <= MAXORD ->
  apply F r dt (option_map VDate ed) = (l, GStop) -> l = expected (code_on r) r (dt_date dt) (last_day ed).
Proof.
  intros K V Hs A. destruct (validate_inv r V) as (Hi & _). destruct ed as [e|]; cbn [option_map last_day] in *.
  - now apply (apply_sound F); [| |lia|].
  - apply (apply_sound F); [assumption|assumption|lia|]. rewrite apply_max; [exact A|lia|assumption..].
Qed.

(** [d] falls on the [k]-th repetition and is neither left out nor too late *)
Definition repetition (r : rule) (s : Z) (ed : option Z) (k d : Z) : Prop :=
  0 <= k /\ d = kth_date r s k
  /\ (forall c, r_count r = Some c -> k < c) /\ (forall u, r_until r = Some (VDate u) -> d <= u)
  /\ ~ In (VDate d) (r_exceptions r) /\ d <= last_day ed.

Theorem C164_dates : forall F r dt ed l, r_kind r <> KNo -> valid_rule r -> until_is_date r -> 1 <= dt_date dt <= MAXORD ->
  always_there r (dt_date dt) -> apply F r dt (option_map VDate ed) = (l, GStop) ->
  forall d, In d l <-> exists k, repetition r (dt_date dt) ed k d.
Proof.
  intros F r dt ed l K V UD Hs AT A d. apply sound_last in A; [|assumption..]. set (s := dt_date dt) in *.
  pose proof (lists_all r s V K ltac:(lia) AT) as L. pose proof (lists_ge _ _ _ L) as G. pose proof (lists_rank _ _ _ L) as R. destruct L as (_ & _ & On).
  assert (X : is_exception r d = false <-> ~ In (VDate d) (r_exceptions r)).
  { unfold is_exception. rewrite <- not_true_iff_false, existsb_exists. split; intros H I; apply H.
    - exists (VDate d). split; [exact I|apply Z.eqb_refl].
    - destruct I as (v & I & E). destruct v; try discriminate. apply Z.eqb_eq in E. now subst. }
  assert (U : in_until r d = true <-> forall u, r_until r = Some (VDate u) -> d <= u).
  { unfold in_until. unfold until_is_date in UD. destruct (r_until r) as [[u| |]|]; try contradiction.
    - rewrite Z.leb_le. split; [intros H u' E; injection E as <-; exact H|auto].
    - split; [discriminate|reflexivity]. }
  subst l. unfold expected, selected, repetition. rewrite filter_In, in_days, !andb_true_iff, negb_true_iff, X, U. split.
  - intros (D & ((O & C) & U') & X'). apply On in O as (k & Hk & ->); [|lia]. exists k. unfold in_count in C. rewrite R in C by exact Hk.
    split; [exact Hk|]. split; [reflexivity|]. split; [|split; [exact U'|split; [exact X'|lia]]]. intros c E. rewrite E in C. lia.
  - intros (k & Hk & -> & C & U' & X' & Le). specialize (G k Hk). split; [lia|]. split; [|exact X']. split; [|exact U'].
    split; [apply On; [exact G|now exists k]|]. unfold in_count. rewrite R by exact Hk. destruct (r_count r) as [c|]; [|reflexivity]. specialize (C c eq_refl). lia.
Qed.

(** without exceptions the k-th date that comes out is the k-th *)
Lemma nth_listed (val : Z -> Z) : (forall j k, 0 <= j -> j < k -> val j < val k) -> forall l a, 0 <= a -> StronglySorted Z.lt l ->
  (forall d, In d l -> exists j, a <= j /\ d = val j) -> (forall i j, a <= i < j -> In (val j) l -> In (val i) l) ->
  forall k d, nth_error l k = Some d -> d = val (a + Z.of_nat k).
Proof.
  intros M l. induction l as [|x l IH]; intros a Ha So I1 I2 k d E; [destruct k; discriminate|].
  inversion So as [|? ? S' A]. subst. rewrite Forall_forall in A.
  destruct (I1 x (or_introl eq_refl)) as (j & Hj & Ex).
  assert (Ej : j = a).
  { destruct (Z.eq_dec j a) as [|N]; [assumption|exfalso]. specialize (I2 a j ltac:(lia)). rewrite <- Ex in I2.
    pose proof (M a j Ha ltac:(lia)) as L. destruct (I2 (or_introl eq_refl)) as [Q|Q]; [lia|]. specialize (A _ Q). lia. }
  rewrite Ej in Ex. clear j Hj Ej.
  destruct k as [|k]; [cbn in E; injection E as <-; now rewrite Z.add_0_r|]. cbn [nth_error] in E.
  replace (a + Z.of_nat (S k)) with (a + 1 + Z.of_nat k) by lia. apply (IH (a + 1)); try assumption; try lia.
  - intros y Hy. destruct (I1 y (or_intror Hy)) as (j & Hj & Ey). exists j. split; [|exact Ey]. destruct (Z.eq_dec j a) as [->|]; [|lia].
    specialize (A y Hy). lia.
  - intros i j Hij Ij. destruct (I2 i j ltac:(lia) (or_intror Ij)) as [Q|Q]; [|exact Q]. pose proof (M a i Ha ltac:(lia)). lia.
Qed.

Lemma nth_error_ext {A} : forall l l' : list A, (forall k, nth_error l k = nth_error l' k) -> l = l'.
Proof.
  induction l as [|x l IH]; intros [|y l'] H; try reflexivity; try (specialize (H O); discriminate).
  pose proof (H O) as H0. cbn in H0. injection H0 as <-. f_equal. apply IH. intros k. exact (H (S k)).
Qed.

Theorem C164_nth : forall F r dt ed l, r_kind r <> KNo -> valid_rule r -> until_is_date r -> 1 <= dt_date dt <= MAXORD ->
  always_there r (dt_date dt) -> r_exceptions r = [] -> apply F r dt (option_map VDate ed) = (l, GStop) ->
  l = map (fun k => kth_date r (dt_date dt) (Z.of_nat k)) (seq 0 (List.length l)).
Proof.
  intros F r dt ed l K V UD Hs AT X A. pose proof (C164_dates F r dt ed l K V UD Hs AT A) as D.
  destruct (validate_inv r V) as (Hi & _).
  assert (S : StronglySorted Z.lt l).
  { pose proof (proj1 (apply_sorted F r dt (option_map VDate ed) ltac:(lia) ltac:(lia))) as S. now rewrite A in S. }
  set (s := dt_date dt) in *. pose proof (lists_mono _ _ _ (lists_all r s V K ltac:(lia) AT)) as M.
  apply nth_error_ext. intros k. destruct (nth_error l k) as [d|] eqn:E.
  - symmetry. assert (Hk : (k < List.length l)%nat) by (apply nth_error_Some; congruence).
    rewrite (map_nth_error _ k (seq 0 (List.length l)) (d := k)).
    + f_equal. symmetry. apply (nth_listed (kth_date r s) M l 0 ltac:(lia) S); [| |exact E].
      * intros y Hy. apply D in Hy as (j & Hj & Ey & _). now exists j.
      * intros i j Hij Ij. apply D in Ij as (j' & Hj & Ej & C & U & _ & Le). apply D. exists i. 
        assert (j' = j). { destruct (Z.lt_trichotomy j j') as [Q|[Q|Q]]; [|lia|]; apply M in Q; lia. } subst j'.
        pose proof (M i j ltac:(lia) ltac:(lia)). split; [lia|]. split; [reflexivity|]. split; [intros c Ec; specialize (C c Ec); lia|].
        split; [intros u Eu; specialize (U u Eu); lia|]. split; [rewrite X; intros []|lia].
    + rewrite nth_error_nth' with (d := O); [now rewrite seq_nth|now rewrite seq_length].
  - symmetry. apply nth_error_None. rewrite map_length, seq_length. now apply nth_error_None.
Qed.

(** ** a count is how many dates there are *)
Lemma basic_count next r c : r_count r = Some c -> r_until r = None -> r_exceptions r = [] -> forall F cur cnt l,
  basic_loop F next r None cur cnt = (l, GStop) -> List.length l = Z.to_nat (c - cnt).
Proof.
  intros C U X F. induction F as [|F IH]; intros cur cnt l E; [discriminate|]. cbn [basic_loop] in E. unfold stop_check, excepted in E. rewrite C, U, X in E. cbn [existsb] in E.
  destruct (Z.leb_spec c cnt).
  - injection E as <-. cbn. lia.
  - destruct (next cur) as [x|e|]; try discriminate. destruct (basic_loop F next r None x (cnt + 1)) as [l' g] eqn:E'. injection E as <- ->.
    apply IH in E'. cbn [app List.length]. rewrite E'. lia.
Qed.
Lemma weekly_count wds r s c : r_count r = Some c -> r_until r = None -> r_exceptions r = [] -> forall F cur cnt l,
  weekly_loop F r wds None s cur cnt = (l, GStop) -> List.length l = Z.to_nat (c - cnt).
Proof.
  intros C U X F. induction F as [|F IH]; intros cur cnt l E; [discriminate|]. cbn [weekly_loop] in E. unfold stop_check, excepted in E. rewrite C, U, X in E. cbn [existsb negb] in E.
  destruct (Z.leb_spec c cnt).
  - injection E as <-. cbn. lia.
  - destruct (weekspan s cur) as [w|e|]; try discriminate. destruct (_ =? 0); try discriminate. destruct (date_add cur 1) as [x|e|]; try discriminate.
    rewrite andb_true_r in E. destruct (_ && _).
    + destruct (weekly_loop F r wds None s x (cnt + 1)) as [l' g] eqn:E'. injection E as <- ->. apply IH in E'. cbn [app List.length]. rewrite E'. lia.
    + destruct (weekly_loop F r wds None s x cnt) as [l' g] eqn:E'. injection E as <- ->. apply IH in E'. cbn [app]. exact E'.
Qed.
Lemma index_count wd i r c : r_count r = Some c -> r_until r = None -> r_exceptions r = [] -> forall F y m cnt l,
  index_loop F r None wd i y m cnt = (l, GStop) -> List.length l = Z.to_nat (c - cnt).
Proof.
  intros C U X F. induction F as [|F IH]; intros y m cnt l E; [discriminate|]. cbn [index_loop] in E. destruct (monthindex y m i wd) as [x|e|]; try discriminate.
  unfold stop_check, excepted in E. rewrite C, U, X in E. cbn [existsb] in E. destruct (Z.leb_spec c cnt).
  - injection E as <-. cbn. lia.
  - destruct (index_loop F r None wd i _ _ (cnt + 1)) as [l' g] eqn:E'. injection E as <- ->. apply IH in E'. cbn [app List.length]. rewrite E'. lia.
Qed.

Theorem C164_count : forall F r dt c l, r_kind r <> KNo -> valid_rule r -> r_count r = Some c -> r_exceptions r = [] ->
  apply F r dt None = (l, GStop) -> List.length l = Z.to_nat c.
Proof.
  intros F r dt c l K V C X A. destruct (validate_inv r V) as (_ & CU & HM & _).
  assert (U : r_until r = None) by (destruct CU; congruence).
  rewrite (apply_unfold F r dt None K : apply F r dt None = _) in A. rewrite <- (Z.sub_0_r c).
  destruct (r_kind r) eqn:KK; try congruence; try (now apply (basic_count _ _ c) in A); try (now apply (weekly_count _ _ _ c) in A).
  destruct (HM eq_refl) as [M|[M|M]]; rewrite M in A; cbn [String.eqb Ascii.eqb Bool.eqb] in A.
  - now apply (basic_count _ _ c) in A.
  - now apply (index_count _ _ _ c) in A.
  - now apply (index_count _ _ _ c) in A.
Qed.

(** every second week on Mondays, Wednesdays and Fridays from a Wednesday on; the
    fifth Monday of every month; a meeting every second month *)
Example C164_case :
  let wed := ymd2ord 2024 1 3 in
  let w := mkRule KWeekly 2 (Some 6) None [] [0; 4; 4] "monthday"%string in
  let m := mkRule KMonthly 1 (Some 4) None [] [] "weekday"%string in
  let x := mkRule KMonthly 2 None (Some (VDate (wed + 200))) [VDate (kth_date (mkRule KMonthly 2 None None [] [] "monthday"%string) wed 1)] [] "monthday"%string in
  let s := ymd2ord 2024 1 29 in
  (weekday wed = 2 /\ valid_rule w /\ until_is_date w /\ always_there w wed
   /\ apply 40 w (wed * DAY) None = ([wed; wed + 2; wed + 12; wed + 14; wed + 16; wed + 26], GStop)
   /\ map (kth_date w wed) [0; 1; 2; 3; 4; 5] = [wed; wed + 2; wed + 12; wed + 14; wed + 16; wed + 26])
  /\ (valid_rule m /\ until_is_date m /\ always_there m s
      /\ fst (apply 40 m (s * DAY) None) = map (kth_date m s) [0; 1; 2; 3]
      /\ map (fun k => ord2ymd (kth_date m s k)) [0; 1; 2; 3] = [(2024, 1, 29); (2024, 3, 4); (2024, 4, 1); (2024, 4, 29)])
  /\ (valid_rule x /\ until_is_date x /\ always_there x wed
      /\ apply 40 x (wed * DAY) None = (map (kth_date x wed) [0; 2; 3], GStop)).
Proof.
  cbv zeta. unfold always_there. repeat match goal with |- _ /\ _ => split end; try (vm_compute; reflexivity); try exact I;
    intros; first [discriminate | vm_compute; discriminate].
Qed.

Print Assumptions C164_dates.
Print Assumptions C164_nth.
Print Assumptions C164_count.
