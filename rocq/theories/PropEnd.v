(** When an expansion comes to an end, for every rule object whatever its
    attributes (C09). *)
From Verif Require Import Base PyDate DateFacts Recurrent SpecRecur RecurProofs RecurExact RecurMain RecurOrder RecurSound RecurMisc.
From Verif Require Import CalTime Event Storage.
From Coq Require Import ZifyBool.
Ltac Zify.zify_post_hook ::= Z.div_mod_to_equations.
Local Opaque ord2ymd year_of month_of day_of ymd2ord days_in_month is_leap.

(** ** specification *)
(** nothing keeps the rule from producing the day [s], however often it has been produced *)
Definition never_cut (r : rule) (ed : option Z) (s : Z) : Prop :=
  r_count r = None
  /\ match ed with Some e => s <= e | None => True end
  /\ match r_until r with None => True | Some (VDate u) => s <= u | Some _ => False end.

(** the rule steps by its interval from one day (month, year) to the next; in
    December 9999 the last weekdays of a month cannot be computed *)
Definition steps_by_interval (r : rule) (s : Z) : Prop :=
  match r_kind r with
  | KBasic | KDaily | KYearly => True
  | KMonthly => r_monthly r = "monthday"%string \/ r_monthly r = "weekday"%string
      \/ (r_monthly r = "lastweekday"%string /\ ~ (year_of s = 9999 /\ month_of s = 12))
  | KWeekly | KNo => False
  end.

(** the rule produces its first day for ever *)
Definition stuck (r : rule) (s : Z) (ed : option dval) : Prop :=
  r_interval r = 0 /\ steps_by_interval r s
  /\ match ed with
     | None => never_cut r None s
     | Some (VDate e) => never_cut r (Some e) s
     | Some _ => False
     end.

(** ** stop_check *)
Lemma never_cut_check r ed s : never_cut r ed s -> forall cnt, stop_check ed r s cnt = Ok false.
Proof.
  intros (C & E & U) cnt. unfold stop_check. rewrite C.
  replace (match ed with Some e => e <? s | None => false end) with false by (destruct ed; lia).
  destruct (r_until r) as [[u|t|]|]; try contradiction; [f_equal; lia|reflexivity].
Qed.

Lemma cut_check r ed s : ~ never_cut r ed s ->
  exists n, forall cnt, n <= cnt -> stop_check ed r s cnt <> Ok false.
Proof.
  intros H. unfold stop_check.
  destruct (match ed with Some e => e <? s | None => false end) eqn:E; [exists 0; discriminate|].
  destruct (r_count r) as [c|] eqn:C.
  - exists c. intros cnt Hc. replace (c <=? cnt) with true by lia. discriminate.
  - exists 0. intros cnt _. destruct (r_until r) as [[u|t|]|] eqn:U; try discriminate.
    + intros X. apply H. split; [exact C|]. rewrite U. split; [destruct ed; [lia|exact I]|]. assert ((u <? s) = false) by congruence. lia.
    + intros _. apply H. split; [exact C|]. rewrite U. split; [destruct ed; [lia|exact I]|exact I].
Qed.

(** ** an interval of zero *)
Lemma basic_zero_open next r ed s : next s = Ok s -> never_cut r ed s ->
  forall F cnt, basic_loop F next r ed s cnt = (if excepted r s then [] else repeat s F, GMore).
Proof.
  intros N C F. induction F as [|F IH]; intros cnt; cbn [basic_loop]; [now destruct (excepted r s)|].
  rewrite never_cut_check, N, IH by assumption. now destruct (excepted r s).
Qed.

Lemma basic_zero_cut next r ed s : next s = Ok s -> ~ never_cut r ed s ->
  exists N, forall F, (N <= F)%nat -> snd (basic_loop F next r ed s 0) <> GMore.
Proof.
  intros N C. destruct (cut_check r ed s C) as [n Hn].
  assert (A : forall m cnt F, m = Z.to_nat (n - cnt) -> (S m <= F)%nat -> snd (basic_loop F next r ed s cnt) <> GMore).
  { induction m as [m IH] using lt_wf_ind. intros cnt F Em HF. destruct F as [|F]; [lia|]. cbn [basic_loop].
    pose proof (stop_check_nofuel ed r s cnt) as NF.
    destruct (stop_check ed r s cnt) as [[|]|x|] eqn:S; try (cbn; discriminate); [|congruence].
    rewrite N. assert (cnt < n) by (destruct (Z_lt_le_dec cnt n) as [L|L]; [exact L|now apply Hn in L]).
    specialize (IH (Z.to_nat (n - (cnt + 1))) ltac:(lia) (cnt + 1) F eq_refl ltac:(lia)).
    destruct (basic_loop F next r ed s (cnt + 1)). exact IH. }
  exists (S (Z.to_nat n)). intros F HF. apply (A (Z.to_nat n)); [f_equal; lia|exact HF].
Qed.

Lemma index_zero_open r ed wd index k s : r_interval r = 0 ->
  monthindex (k / 12) (k mod 12 + 1) index wd = Ok s -> never_cut r ed s ->
  forall F cnt, index_loop F r ed wd index (k / 12) (k mod 12 + 1) cnt
    = (if excepted r s then [] else repeat s F, GMore).
Proof.
  intros I M C F. induction F as [|F IH]; intros cnt; cbn [index_loop]; [now destruct (excepted r s)|].
  rewrite M, never_cut_check by assumption.
  replace (k / 12 * 12 + (k mod 12 + 1) + r_interval r - 1) with k by lia.
  rewrite IH. now destruct (excepted r s).
Qed.

Lemma index_zero_cut r ed wd index k s : r_interval r = 0 ->
  monthindex (k / 12) (k mod 12 + 1) index wd = Ok s -> ~ never_cut r ed s ->
  exists N, forall F, (N <= F)%nat -> snd (index_loop F r ed wd index (k / 12) (k mod 12 + 1) 0) <> GMore.
Proof.
  intros I M C. destruct (cut_check r ed s C) as [n Hn].
  assert (A : forall m cnt F, m = Z.to_nat (n - cnt) -> (S m <= F)%nat ->
            snd (index_loop F r ed wd index (k / 12) (k mod 12 + 1) cnt) <> GMore).
  { induction m as [m IH] using lt_wf_ind. intros cnt F Em HF. destruct F as [|F]; [lia|]. cbn [index_loop].
    rewrite M. pose proof (stop_check_nofuel ed r s cnt) as NF.
    destruct (stop_check ed r s cnt) as [[|]|x|] eqn:S; try (cbn; discriminate); [|congruence].
    replace (k / 12 * 12 + (k mod 12 + 1) + r_interval r - 1) with k by lia.
    assert (cnt < n) by (destruct (Z_lt_le_dec cnt n) as [L|L]; [exact L|now apply Hn in L]).
    specialize (IH (Z.to_nat (n - (cnt + 1))) ltac:(lia) (cnt + 1) F eq_refl ltac:(lia)).
    destruct (index_loop F r ed wd index (k / 12) (k mod 12 + 1) (cnt + 1)). exact IH. }
  exists (S (Z.to_nat n)). intros F HF. apply (A (Z.to_nat n)); [f_equal; lia|exact HF].
Qed.

(** ** a negative interval steps back until the calendar ends *)
Definition backward (next : Z -> res Z) : Prop := forall d c, 1 <= d -> next d = Ok c -> 1 <= c < d.

Lemma backward_basic r : r_interval r < 0 -> backward (basic_next r).
Proof.
  intros H d c Hd. unfold basic_next, date_add. destruct (_ && _) eqn:E; [|discriminate].
  intros X. injection X as <-. lia.
Qed.

Lemma backward_yearly r : r_interval r < 0 -> backward (yearly_next r).
Proof.
  intros H d c Hd E. unfold yearly_next, date_replace in E. apply py_date_ok in E.
  destruct E as (Y & C & -> & R & E1 & E2 & E3). split; [lia|]. apply year_lt_ord; lia.
Qed.

Lemma monthly_loop_lt F i d y m c : i < 0 -> 1 <= d -> 1 <= m <= 12 -> y * 12 + m - 1 <= mi d ->
  monthly_next_loop F i d y m = Ok c -> 1 <= c < d.
Proof.
  revert y m. induction F as [|F IH]; intros y m Hi Hd Hm Hmi E; [discriminate|].
  cbn [monthly_next_loop] in E. set (t := y * 12 + m - 1 + i) in *.
  destruct (date_replace d (t / 12) (t mod 12 + 1)) as [x|e|] eqn:R.
  - injection E as <-. unfold date_replace in R. apply py_date_ok in R.
    destruct R as (Y & C & -> & R & E1 & E2 & E3). split; [lia|].
    apply ord_lt_mi; try lia. unfold mi at 1. rewrite E1, E2. subst t. lia.
  - destruct e; try discriminate. apply (IH _ _) in E; try assumption; subst t; lia.
  - discriminate.
Qed.

Lemma backward_monthly F r : r_interval r < 0 -> backward (monthly_next F r).
Proof.
  intros H d c Hd. pose proof (month_range d Hd). apply monthly_loop_lt; try assumption. unfold mi. lia.
Qed.

Lemma monthly_loop_ends i d : i < 0 ->
  forall n y m, 1 <= m <= 12 -> n = Z.to_nat (12 * y + m - 12 * (INT_MIN - 2)) ->
  forall F, (S n <= F)%nat -> monthly_next_loop F i d y m <> OutOfFuel.
Proof.
  intros Hi n. induction n as [n IH] using lt_wf_ind. intros y m Hm En F HF.
  destruct F as [|F]; [lia|]. cbn [monthly_next_loop]. set (t := y * 12 + m - 1 + i).
  pose proof (py_date_nofuel (t / 12) (t mod 12 + 1) (day_of d)) as NF. unfold date_replace.
  destruct (py_date (t / 12) (t mod 12 + 1) (day_of d)) as [x|e|] eqn:E; try discriminate; [|contradiction].
  destruct e; try discriminate.
  assert (INT_MIN <= t / 12).
  { unfold py_date in E. destruct (c_int (t / 12)) eqn:C; [unfold c_int in C; lia|discriminate]. }
  apply (IH (Z.to_nat (12 * (t / 12) + (t mod 12 + 1) - 12 * (INT_MIN - 2)))); try lia; subst t; lia.
Qed.

Lemma basic_back_ends next r ed :
  (forall G, backward (next G)) ->
  (exists N, forall d G, 1 <= d <= MAXORD -> (N <= G)%nat -> next G d <> OutOfFuel) ->
  exists N, forall F cur cnt, 1 <= cur <= MAXORD -> (N <= F)%nat ->
    snd (basic_loop F (next F) r ed cur cnt) <> GMore.
Proof.
  intros Hf [N HN].
  assert (A : forall n cur cnt F G, n = Z.to_nat cur -> 1 <= cur <= MAXORD ->
             (S n <= F)%nat -> (N <= G)%nat -> snd (basic_loop F (next G) r ed cur cnt) <> GMore).
  { induction n as [n IH] using lt_wf_ind. intros cur cnt F G En Hc HF HG.
    destruct F as [|F]; [lia|]. cbn [basic_loop]. pose proof (stop_check_nofuel ed r cur cnt) as NF.
    destruct (stop_check ed r cur cnt) as [[|]|x|] eqn:S; try (cbn; discriminate); [|congruence].
    specialize (HN cur G Hc HG). destruct (next G cur) as [c|x|] eqn:E; try congruence; [|cbn; discriminate].
    destruct (Hf G cur c ltac:(lia) E) as [L1 L2].
    specialize (IH (Z.to_nat c) ltac:(lia) c (cnt + 1) F G eq_refl ltac:(lia) ltac:(lia) HG).
    destruct (basic_loop F (next G) r ed c (cnt + 1)). exact IH. }
  exists (N + S (Z.to_nat MAXORD))%nat. intros F cur cnt Hc HF. apply (A (Z.to_nat cur)); try assumption; try reflexivity; lia.
Qed.

Lemma index_back_ends r ed wd index a b :
  (1 <= index /\ a = 0 /\ b = index - 1) \/ (index < 0 /\ a = 1 /\ b = index) ->
  0 <= wd <= 6 -> r_interval r < 0 ->
  forall n k cnt F, n = Z.to_nat k -> (S (S n) <= F)%nat ->
  snd (index_loop F r ed wd index (k / 12) (k mod 12 + 1) cnt) <> GMore.
Proof.
  intros Hi Hw Hn. induction n as [n IH] using lt_wf_ind. intros k cnt F En HF.
  destruct F as [|F]; [lia|]. cbn [index_loop].
  pose proof (monthindex_nofuel (k / 12) (k mod 12 + 1) index wd) as MN.
  destruct (monthindex (k / 12) (k mod 12 + 1) index wd) as [cur|x|] eqn:M; try congruence; try (cbn; discriminate).
  apply (monthindex_inv k index wd a b) in M; try assumption.
  pose proof (stop_check_nofuel ed r cur cnt) as NF.
  destruct (stop_check ed r cur cnt) as [[|]|x|] eqn:S; try congruence; try (cbn; discriminate).
  replace (k / 12 * 12 + (k mod 12 + 1) + r_interval r - 1) with (k + r_interval r) by lia.
  specialize (IH (Z.to_nat (k + r_interval r)) ltac:(lia) (k + r_interval r) (cnt + 1) F eq_refl ltac:(lia)).
  destruct (index_loop F r ed wd index _ _ (cnt + 1)). exact IH.
Qed.

(** ** the first day *)
Lemma replace_self d y m : 1 <= d <= MAXORD -> y = year_of d -> m = month_of d -> date_replace d y m = Ok d.
Proof.
  intros H -> ->. unfold date_replace.
  pose proof (year_ge1 d ltac:(lia)). pose proof (proj2 (year_le_iff d ltac:(lia)) ltac:(lia)).
  rewrite py_date_valid; [now rewrite ord_roundtrip by lia|lia|]. pose proof (ord2ymd_ok d ltac:(lia)) as K. rewrite ord2ymd_eta in K. tauto.
Qed.

Lemma first_weekday s : 1 <= s <= MAXORD ->
  monthindex (mi s / 12) (mi s mod 12 + 1) (nth_weekday s + 1) (weekday s) = Ok s.
Proof.
  intros H. pose proof (mi_ge12 s ltac:(lia)). pose proof (nth_range s ltac:(lia)). pose proof (start_is_fw s ltac:(lia)) as SF.
  rewrite (monthindex_ok (mi s) (nth_weekday s + 1) (weekday s) 0 (nth_weekday s)); rewrite ?Z.add_0_r.
  - now rewrite <- SF.
  - now apply index_args.
  - assumption.
  - apply weekday_range.
  - lia.
  - lia.
Qed.

Lemma first_last_weekday s : 1 <= s <= MAXORD -> ~ (year_of s = 9999 /\ month_of s = 12) ->
  monthindex (mi s / 12) (mi s mod 12 + 1) (- (nth_last_weekday s + 1)) (weekday s) = Ok s.
Proof.
  intros H D. pose proof (mi_ge12 s ltac:(lia)). pose proof (nth_last_range s ltac:(lia)). pose proof (start_is_fw_last s ltac:(lia)) as SF.
  pose proof (proj2 (year_le_iff s ltac:(lia)) ltac:(lia)). pose proof (month_range s ltac:(lia)).
  assert (MI : mi s + 1 <= 12 * 9999 + 11) by (unfold mi, MAXYEAR in *; lia).
  pose proof (fw_bounds (mi s + 1) (weekday s) ltac:(lia) (weekday_range s)) as FB.
  pose proof (month_start_le (mi s + 1) (12 * 9999 + 11) ltac:(lia) MI) as ML. pose proof month_start_max.
  rewrite (monthindex_ok (mi s) (- (nth_last_weekday s + 1)) (weekday s) 1 (- (nth_last_weekday s + 1))).
  - now rewrite <- SF.
  - apply last_args; lia.
  - lia.
  - apply weekday_range.
  - lia.
  - lia.
Qed.

Lemma december_9999 F r s ed : 1 <= s -> year_of s = 9999 -> month_of s = 12 ->
  snd (apply_lastweekday (S F) r s ed) <> GMore.
Proof.
  intros H Y M. rewrite apply_lastweekday_eq by assumption. cbn [index_loop].
  pose proof (monthindex_nofuel (mi s / 12) (mi s mod 12 + 1) (- (nth_last_weekday s + 1)) (weekday s)) as MN.
  destruct (monthindex _ _ _ _) as [c|x|] eqn:E; [|cbn; discriminate|congruence].
  apply (monthindex_inv (mi s) _ (weekday s) 1 (- (nth_last_weekday s + 1))) in E; [|now apply last_args|apply weekday_range].
  unfold mi in E. lia.
Qed.

(** ** the whole method *)
Definition ends (r : rule) (dt : Z) (ed : option dval) : Prop :=
  exists N, forall F, (N <= F)%nat -> snd (apply F r dt ed) <> GMore.

Lemma ends_now r dt ed : (forall F, snd (apply (S F) r dt ed) <> GMore) -> ends r dt ed.
Proof. intros H. exists 1%nat. intros [|F] HF; [lia|apply H]. Qed.

Lemma ends_back r dt ed : r_interval r < 0 -> 1 <= dt_date dt <= MAXORD -> ends r dt ed.
Proof.
  intros Hi Hs. unfold ends, apply. set (s := dt_date dt) in *.
  assert (NIL : forall g : gen, snd g <> GMore -> exists N, forall F, (N <= F)%nat -> snd g <> GMore)
    by (intros; exists 0%nat; auto).
  assert (B : forall ed', exists N, forall F, (N <= F)%nat -> snd (basic_loop F (basic_next r) r ed' s 0) <> GMore).
  { intros ed'. destruct (basic_back_ends (fun _ => basic_next r) r ed') as [N HN].
    - intros _. now apply backward_basic.
    - exists 0%nat. intros. unfold basic_next, date_add. destruct (_ && _); discriminate.
    - exists N. intros; now apply HN. }
  assert (Y : forall ed', exists N, forall F, (N <= F)%nat -> snd (basic_loop F (yearly_next r) r ed' s 0) <> GMore).
  { intros ed'. destruct (basic_back_ends (fun _ => yearly_next r) r ed') as [N HN].
    - intros _. now apply backward_yearly.
    - exists 0%nat. intros. apply py_date_nofuel.
    - exists N. intros; now apply HN. }
  assert (M : forall ed', exists N, forall F, (N <= F)%nat -> snd (basic_loop F (monthly_next F r) r ed' s 0) <> GMore).
  { intros ed'. destruct (basic_back_ends (fun G => monthly_next G r) r ed') as [N HN].
    - intros G. now apply backward_monthly.
    - exists (S (Z.to_nat (12 * 10000 + 12 - 12 * (INT_MIN - 2)))). intros d G Hd HG. unfold monthly_next.
      pose proof (month_range d ltac:(lia)). pose proof (proj2 (year_le_iff d ltac:(lia)) ltac:(lia)). unfold MAXYEAR in *.
      eapply monthly_loop_ends; try reflexivity; lia.
    - exists N. intros; now apply HN. }
  assert (W : forall ed', exists N, forall F, (N <= F)%nat ->
            snd (weekly_loop F r (weekday s :: r_weekdays r) ed' s s 0) <> GMore).
  { intros ed'. exists (S (Z.to_nat (MAXORD - s))). intros F HF.
    now apply (weekly_terminates _ _ _ _ (Z.to_nat (MAXORD - s))). }
  assert (I1 : forall ed', exists N, forall F, (N <= F)%nat -> snd (apply_weekday F r s ed') <> GMore).
  { intros ed'. exists (S (S (Z.to_nat (mi s)))). intros F HF. rewrite apply_weekday_eq by lia.
    apply (index_back_ends r ed' (weekday s) (nth_weekday s + 1) 0 (nth_weekday s)
             (index_args s ltac:(lia)) (weekday_range s) Hi _ (mi s) 0 F eq_refl HF). }
  assert (I2 : forall ed', exists N, forall F, (N <= F)%nat -> snd (apply_lastweekday F r s ed') <> GMore).
  { intros ed'. exists (S (S (Z.to_nat (mi s)))). intros F HF. rewrite apply_lastweekday_eq by lia.
    apply (index_back_ends r ed' (weekday s) _ 1 _
             (last_args s ltac:(lia)) (weekday_range s) Hi _ (mi s) 0 F eq_refl HF). }
  destruct (r_kind r); try (apply NIL; cbn; discriminate);
    (destruct ed as [[e|t|]|]; try (apply NIL; cbn; discriminate));
    try apply B; try apply Y; try apply W;
    (destruct (String.eqb _ _); [|destruct (String.eqb _ _); [|destruct (String.eqb _ _)]]);
    try apply M; try apply I1; try apply I2; apply NIL; cbn; discriminate.
Qed.

Lemma zero_next_basic r d : r_interval r = 0 -> 1 <= d <= MAXORD -> basic_next r d = Ok d.
Proof. intros I H. unfold basic_next, date_add. rewrite I, Z.add_0_r. now replace (_ && _) with true by lia. Qed.
Lemma zero_next_yearly r d : r_interval r = 0 -> 1 <= d <= MAXORD -> yearly_next r d = Ok d.
Proof. intros I H. unfold yearly_next. rewrite I, Z.add_0_r. now apply replace_self. Qed.
Lemma zero_next_monthly F r d : r_interval r = 0 -> 1 <= d <= MAXORD -> monthly_next (S F) r d = Ok d.
Proof.
  intros I H. unfold monthly_next. cbn [monthly_next_loop]. rewrite I. pose proof (month_range d ltac:(lia)).
  rewrite replace_self; [reflexivity|assumption|lia|lia].
Qed.

(** the monthly loop uses the same fuel for its inner loop *)
Lemma monthly_zero_open F r ed s : r_interval r = 0 -> 1 <= s <= MAXORD -> never_cut r ed s ->
  basic_loop F (monthly_next F r) r ed s 0 = (if excepted r s then [] else repeat s F, GMore).
Proof.
  intros I H C. destruct F as [|F]; [cbn; now destruct (excepted r s)|].
  apply basic_zero_open; [now apply zero_next_monthly|exact C].
Qed.

Lemma monthly_zero_cut r ed s : r_interval r = 0 -> 1 <= s <= MAXORD -> ~ never_cut r ed s ->
  exists N, forall F, (N <= F)%nat -> snd (basic_loop F (monthly_next F r) r ed s 0) <> GMore.
Proof.
  intros I H C.
  destruct (basic_zero_cut (fun d => Ok d) r ed s eq_refl C) as [N HN].
  exists (S N). intros F HF. destruct F as [|F]; [lia|].
  assert (A : forall n cnt, basic_loop n (monthly_next (S F) r) r ed s cnt = basic_loop n (fun d => Ok d) r ed s cnt).
  { induction n as [|n IH]; intros cnt; [reflexivity|]. cbn [basic_loop]. rewrite zero_next_monthly by assumption. now rewrite IH. }
  rewrite A. apply HN. lia.
Qed.

Definition plain_ed (ed : option dval) : option (option Z) :=
  match ed with None => Some None | Some (VDate e) => Some (Some e) | Some _ => None end.

Lemma stuck_runs r dt ed : 1 <= dt_date dt <= MAXORD -> stuck r (dt_date dt) ed ->
  forall F, apply F r dt ed = (if is_exception r (dt_date dt) then [] else repeat (dt_date dt) F, GMore).
Proof.
  intros Hs (I & K & C) F. rewrite <- excepted_is. set (s := dt_date dt) in *.
  assert (P : exists ed', (ed = option_map VDate ed') /\ never_cut r ed' s).
  { destruct ed as [[e|t|]|]; try contradiction; [exists (Some e)|exists None]; split; trivial. }
  destruct P as (ed' & -> & C'). clear C.
  unfold steps_by_interval in K. unfold apply. fold s.
  assert (ED : match option_map VDate ed' with
               | None => Ok None | Some (VDate e) => Ok (Some e) | Some _ => Raise AssertionError end
               = @Ok (option Z) ed') by (destruct ed'; reflexivity).
  destruct (r_kind r); try contradiction; rewrite ED.
  - apply basic_zero_open; [now apply zero_next_basic|exact C'].
  - apply basic_zero_open; [now apply zero_next_basic|exact C'].
  - apply basic_zero_open; [now apply zero_next_yearly|exact C'].
  - destruct K as [M|[M|[M D]]]; rewrite M; cbn [String.eqb Ascii.eqb Bool.eqb].
    + now apply monthly_zero_open.
    + rewrite apply_weekday_eq by lia. apply index_zero_open; [exact I|now apply first_weekday|exact C'].
    + rewrite apply_lastweekday_eq by lia. apply index_zero_open; [exact I|now apply first_last_weekday|exact C'].
Qed.

Lemma ends_zero r dt ed : r_interval r = 0 -> 1 <= dt_date dt <= MAXORD -> ~ stuck r (dt_date dt) ed -> ends r dt ed.
Proof.
  intros I Hs NS. unfold stuck, steps_by_interval in NS. set (s := dt_date dt) in *.
  assert (W : forall ed', exists N, forall F, (N <= F)%nat ->
            snd (weekly_loop F r (weekday s :: r_weekdays r) ed' s s 0) <> GMore).
  { intros ed'. exists (S (Z.to_nat (MAXORD - s))). intros F HF.
    now apply (weekly_terminates _ _ _ _ (Z.to_nat (MAXORD - s))). }
  assert (P : (exists ed', ed = option_map VDate ed') \/ plain_ed ed = None).
  { destruct ed as [[e|t|]|]; [left; exists (Some e)|right|right|left; exists None]; reflexivity. }
  destruct P as [(ed' & ->)|P].
  2:{ exists 0%nat. intros F _. unfold apply. destruct ed as [[e|t|]|]; try discriminate; destruct (r_kind r); cbn; discriminate. }
  assert (ED : match option_map VDate ed' with
               | None => Ok None | Some (VDate e) => Ok (Some e) | Some _ => Raise AssertionError end
               = @Ok (option Z) ed') by (destruct ed'; reflexivity).
  assert (NC : match option_map VDate ed' with
     | None => never_cut r None s | Some (VDate e) => never_cut r (Some e) s | Some _ => False end = never_cut r ed' s)
    by (destruct ed'; reflexivity).
  rewrite NC in NS. clear NC. unfold ends, apply. fold s. rewrite ED.
  destruct (r_kind r) eqn:K.
  - apply basic_zero_cut; [now apply zero_next_basic|tauto].
  - exists 0%nat. intros; cbn; discriminate.
  - apply basic_zero_cut; [now apply zero_next_basic|tauto].
  - apply basic_zero_cut; [now apply zero_next_yearly|tauto].
  - apply W.
  - destruct (String.eqb (r_monthly r) "monthday") eqn:E1.
    { apply String.eqb_eq in E1. apply monthly_zero_cut; tauto. }
    destruct (String.eqb (r_monthly r) "weekday") eqn:E2.
    { apply String.eqb_eq in E2. destruct (index_zero_cut r ed' (weekday s) (nth_weekday s + 1) (mi s) s I (first_weekday s Hs) ltac:(tauto)) as [N HN].
      exists N. intros F HF. rewrite apply_weekday_eq by lia. now apply HN. }
    destruct (String.eqb (r_monthly r) "lastweekday") eqn:E3; [|exists 0%nat; intros; cbn; discriminate].
    apply String.eqb_eq in E3.
    destruct (Z.eq_dec (year_of s) 9999) as [Y|Y]; [destruct (Z.eq_dec (month_of s) 12) as [M|M]|].
    { exists 1%nat. intros [|F] HF; [lia|]. now apply december_9999. }
    all: destruct (index_zero_cut r ed' (weekday s) (- (nth_last_weekday s + 1)) (mi s) s I (first_last_weekday s Hs ltac:(tauto)) ltac:(tauto)) as [N HN];
      exists N; intros F HF; rewrite apply_lastweekday_eq by lia; now apply HN.
Qed.

(** ** theorems *)
(** An expansion ends (it stops or raises) exactly when its rule is not stuck;
    a stuck rule yields its first day over and over. *)
Theorem C09_ends_iff : forall r dt ed, 1 <= dt_date dt <= MAXORD ->
  ((exists N out f, f <> GMore /\ forall F, (N <= F)%nat -> apply F r dt ed = (out, f))
   <-> ~ stuck r (dt_date dt) ed).
Proof.
  intros r dt ed Hs. split.
  - intros (N & out & f & NM & H) S. specialize (H N (le_n N)). rewrite (stuck_runs r dt ed Hs S) in H. congruence.
  - intros NS. assert (E : ends r dt ed).
    { destruct (Z_lt_le_dec (r_interval r) 0) as [L|L]; [now apply ends_back|].
      destruct (Z.eq_dec (r_interval r) 0) as [Z0|NZ]; [now apply ends_zero|]. now apply apply_terminates; [lia|]. }
    destruct E as [N HN]. exists N, (fst (apply N r dt ed)), (snd (apply N r dt ed)).
    split; [apply HN; lia|]. intros F HF.
    pose proof (apply_fuel r dt ed N F HF) as G. specialize (HN N ltac:(lia)).
    unfold gen_le in G. destruct (apply N r dt ed) as [l f]. cbn in *. destruct f; try congruence; assumption.
Qed.

Theorem C09_stuck_exact : forall r dt ed, 1 <= dt_date dt <= MAXORD -> stuck r (dt_date dt) ed ->
  forall F, apply F r dt ed = (if is_exception r (dt_date dt) then [] else repeat (dt_date dt) F, GMore).
Proof. exact stuck_runs. Qed.

(** A query over a bounded period ends when no stored event is stuck. *)
Lemma rfilter_nofuel {A} (f : A -> res bool) l : (forall x, f x <> OutOfFuel) -> rfilter f l <> OutOfFuel.
Proof.
  intros H. induction l as [|x l IH]; cbn [rfilter]; [discriminate|]. specialize (H x).
  destruct (f x); cbn; try congruence. destruct (rfilter f l); cbn; congruence.
Qed.

Lemma rconcat_ends {A B} (f : nat -> A -> res (list B)) l :
  (forall x, In x l -> exists N, forall F, (N <= F)%nat -> f F x <> OutOfFuel) ->
  exists N, forall F, (N <= F)%nat -> rconcat_map (f F) l <> OutOfFuel.
Proof.
  induction l as [|x l IH]; intros H; [exists 0%nat; discriminate|].
  destruct (H x (or_introl eq_refl)) as [N1 H1]. destruct IH as [N2 H2]; [intros y Hy; apply H; now right|].
  exists (N1 + N2)%nat. intros F HF. cbn [rconcat_map]. specialize (H1 F ltac:(lia)). specialize (H2 F ltac:(lia)).
  destruct (f F x); cbn; try congruence. destruct (rconcat_map (f F) l); cbn; congruence.
Qed.

Lemma in_period_nofuel t d p : in_period t d p <> OutOfFuel.
Proof.
  unfold in_period, end_of, dt_add. destruct p as [[b|] [e|]], d as [d|]; cbn; try discriminate;
    destruct (dt_ok _); cbn; try discriminate; destruct (_ <=? _); discriminate.
Qed.

Lemma expand_dates_nofuel e p l : expand_dates e p l <> OutOfFuel.
Proof.
  unfold expand_dates. induction l as [|d l IH]; cbn [rconcat_map]; [discriminate|].
  pose proof (in_period_nofuel (combine d (dt_time (e_dtstart e))) (e_duration e) p) as N.
  destruct (in_period _ _ p) as [b| |]; cbn; try congruence.
  destruct (rconcat_map _ l); cbn; congruence.
Qed.

Lemma dt_ok_date t : dt_ok t = true -> 1 <= dt_date t <= MAXORD.
Proof. unfold dt_ok, dt_date, DAY, MAXORD. lia. Qed.

Lemma expand_ends e p : 
  (forall r b, e_recurrence e = Some r -> snd p = Some b -> dt_ok (e_dtstart e) = true
     /\ ~ stuck r (dt_date (e_dtstart e)) (Some (VDate (dt_date b)))) ->
  exists N, forall F, (N <= F)%nat -> expand F e p <> OutOfFuel.
Proof.
  intros H. unfold expand. destruct (e_recurrence e) as [r|].
  - destruct (snd p) as [b|]; [|exists 0%nat; discriminate].
    destruct (H r b eq_refl eq_refl) as [O S]. pose proof (dt_ok_date _ O) as D.
    destruct (proj2 (C09_ends_iff r (e_dtstart e) (Some (VDate (dt_date b))) D) S) as (N & out & f & NM & HN).
    exists N. intros F HF. rewrite HN by assumption.
    pose proof (expand_dates_nofuel e p out). destruct (expand_dates e p out); cbn; try congruence; destruct f; congruence.
  - exists 0%nat. intros F _. pose proof (in_period_nofuel (e_dtstart e) (e_duration e) p).
    destruct (in_period _ _ p); cbn; congruence.
Qed.

Lemma match_nofuel c e : match_criteria c e <> OutOfFuel.
Proof.
  assert (A : forall l, match_attendees c e l <> OutOfFuel).
  { induction l as [|a l IH]; cbn [match_attendees]; [discriminate|].
    unfold has_attendee, get_status, get_role, attendee_id. destruct a as [i|]; cbn; [|discriminate].
    destruct (dget (e_state e) i); cbn; [|exact IH].
    destruct (match c_status c with Some _ => _ | None => _ end); [exact IH|].
    destruct (match c_role c with Some _ => _ | None => _ end); [exact IH|discriminate]. }
  unfold match_criteria. destruct (match c_categories c with Some _ => _ | None => _ end); [discriminate|].
  destruct (c_organizer c) as [[o|]|]; cbn; try discriminate.
  - destruct (negb _); [discriminate|]. destruct (c_attendees c); [apply A|discriminate].
  - destruct (c_attendees c); [apply A|discriminate].
Qed.

Theorem C09_queries_end : forall evs p c,
  (forall e r b, In e evs -> e_recurrence e = Some r -> snd p = Some b ->
     dt_ok (e_dtstart e) = true /\ ~ stuck r (dt_date (e_dtstart e)) (Some (VDate (dt_date b)))) ->
  exists N, forall F, (N <= F)%nat -> get_occurrences F evs p c <> OutOfFuel.
Proof.
  intros evs p c H. unfold get_occurrences.
  assert (AB : assert_bounded p <> OutOfFuel) by (unfold assert_bounded; destruct p as [[|] [|]]; discriminate).
  destruct (assert_bounded p); cbn; try (exists 0%nat; discriminate); [|congruence].
  pose proof (rfilter_nofuel (match_criteria (match c with Some c => c | None => null_criteria end)) evs
                ltac:(intros; apply match_nofuel)) as M.
  unfold matching_events.
  assert (SUB : forall l, rfilter (match_criteria (match c with Some c => c | None => null_criteria end)) evs = Ok l -> incl l evs).
  { generalize (match_criteria (match c with Some c => c | None => null_criteria end)) as g. clear.
    intros g. induction evs as [|e evs IH]; intros l; cbn [rfilter]; [intros X; assert (l = []) by congruence; subst; apply incl_refl|].
    destruct (g e) as [b| |]; cbn; try discriminate. destruct (rfilter g evs) as [l'| |] eqn:R; cbn; try discriminate.
    intros X. assert (l = if b then e :: l' else l') by congruence. subst l. specialize (IH l' eq_refl).
    destruct b; [|now apply incl_tl]. apply incl_cons; [now left|now apply incl_tl]. }
  destruct (rfilter _ evs) as [l| |]; cbn; try (exists 0%nat; discriminate); [|congruence].
  apply rconcat_ends. intros e He. apply expand_ends. intros r b. apply H. now apply (SUB l eq_refl).
Qed.

(** A query that has to look at a stuck event never answers. *)
Theorem C09_stuck_query : forall evs p e r b,
  In e evs -> e_recurrence e = Some r -> snd p = Some b -> dt_ok (e_dtstart e) = true ->
  stuck r (dt_date (e_dtstart e)) (Some (VDate (dt_date b))) ->
  forall F l, get_occurrences F evs p None <> Ok l.
Proof.
  intros evs p e r b He R P D S F l E. unfold get_occurrences in E.
  destruct (assert_bounded p); cbn in E; try discriminate.
  assert (M : matching_events evs None = Ok evs).
  { unfold matching_events. assert (A : forall e, match_criteria null_criteria e = Ok true) by reflexivity.
    clear - A. induction evs as [|x xs IH]; cbn [rfilter]; [reflexivity|]. rewrite A. cbn. rewrite IH. reflexivity. }
  rewrite M in E. cbn in E. clear M.
  assert (X : exists l', expand F e p = Ok l').
  { revert l E. induction evs as [|x xs IH]; intros l; [destruct He|]. cbn [rconcat_map].
    destruct (expand F x p) as [lx| |] eqn:EX; cbn; try discriminate.
    destruct (rconcat_map (fun e0 => expand F e0 p) xs) as [lr| |] eqn:RC; cbn; try discriminate.
    intros _. destruct He as [->|He]; [now exists lx|]. now apply (IH He lr). }
  destruct X as [l' X]. unfold expand in X. rewrite R, P in X.
  rewrite (stuck_runs r (e_dtstart e) _ (dt_ok_date _ D) S) in X.
  destruct (expand_dates e p _); cbn in X; discriminate.
Qed.

(** *** Examples *)
(** what an import of "RRULE:FREQ=MONTHLY;INTERVAL=0" leaves on an event, and
    the ways out of the loop *)
Example C09_ends_case :
  let s := ymd2ord 2024 1 31 in
  let r := mkRule KMonthly 0 None None [] [] "monthday"%string in
  stuck r s None
  /\ stuck r s (Some (VDate s))
  /\ apply 3 r (s * DAY) None = ([s; s; s], GMore)
  /\ ~ stuck r s (Some (VDate (s - 1)))
  /\ ~ stuck (mkRule KMonthly 0 (Some 5) None [] [] "monthday"%string) s None
  /\ apply 9 (mkRule KMonthly 0 (Some 5) None [] [] "monthday"%string) (s * DAY) None = ([s; s; s; s; s], GStop)
  /\ apply 9 (mkRule KDaily (-400000) None None [] [] "monthday"%string) (s * DAY) None
     = ([s; s - 400000], GRaise OverflowError)
  /\ 1 <= dt_date (s * DAY) <= MAXORD.
Proof.
  cbv zeta. split; [vm_compute; intuition congruence|]. split; [vm_compute; intuition congruence|].
  split; [vm_compute; reflexivity|]. split; [intros (_ & _ & _ & H & _); vm_compute in H; congruence|].
  split; [intros (_ & _ & H & _); discriminate|]. split; [vm_compute; reflexivity|]. split; [vm_compute; reflexivity|].
  vm_compute; intuition congruence.
Qed.

(** the same rules on stored events: one query ends, the other never answers *)
Definition case_event (r : rule) : event :=
  mkEvent "u"%string (ymd2ord 2024 1 31 * DAY) (Some HOUR) "" "" "" "TENTATIVE"%string (Some r) false [] false
          "PUBLIC"%string None None [] [].
Example C09_query_case :
  let p := (Some (ymd2ord 2024 1 1 * DAY), Some (ymd2ord 2024 3 1 * DAY)) in
  let good := case_event (mkRule KMonthly 0 (Some 5) None [] [] "monthday"%string) in
  let bad := case_event (mkRule KMonthly 0 None None [] [] "monthday"%string) in
  (forall e r b, In e [good] -> e_recurrence e = Some r -> snd p = Some b ->
     dt_ok (e_dtstart e) = true /\ ~ stuck r (dt_date (e_dtstart e)) (Some (VDate (dt_date b))))
  /\ (exists l, get_occurrences 9 [good] p None = Ok l /\ List.length l = 5%nat)
  /\ e_recurrence bad = Some (mkRule KMonthly 0 None None [] [] "monthday"%string)
  /\ dt_ok (e_dtstart bad) = true
  /\ stuck (mkRule KMonthly 0 None None [] [] "monthday"%string) (dt_date (e_dtstart bad))
           (Some (VDate (dt_date (ymd2ord 2024 3 1 * DAY)))).
Proof.
  cbv zeta. split.
  - intros e r b [<-|[]] R _. split; [vm_compute; reflexivity|]. injection R as <-. intros (_ & _ & H & _). discriminate.
  - split; [eexists; split; vm_compute; reflexivity|]. split; [reflexivity|]. split; [vm_compute; reflexivity|].
    vm_compute; intuition congruence.
Qed.

Print Assumptions C09_ends_iff.
Print Assumptions C09_stuck_exact.
Print Assumptions C09_queries_end.
Print Assumptions C09_stuck_query.
