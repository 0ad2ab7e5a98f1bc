(** Ordering, truncation, termination and fuel-independence of [apply], for any
    rule with a positive interval and without representability hypotheses. *)
From Verif Require Import Base PyDate DateFacts Recurrent SpecRecur RecurProofs RecurExact RecurMain.
From Coq Require Import ZifyBool Sorted.
Ltac Zify.zify_post_hook ::= Z.div_mod_to_equations.
Local Opaque ord2ymd year_of month_of day_of ymd2ord days_in_month is_leap.

Definition bounded_ed (e : Z) (d : Z) : bool := d <=? e.

(** ** steps move forward *)

Lemma basic_next_gt r d c : 1 <= r_interval r -> basic_next r d = Ok c -> d < c <= MAXORD.
Proof.
  unfold basic_next, date_add. intros H. destruct (_ && _) eqn:E; [|discriminate].
  intros X. injection X as <-. lia.
Qed.

Lemma yearly_next_gt r d c : 1 <= r_interval r -> 1 <= d -> yearly_next r d = Ok c -> d < c <= MAXORD.
Proof.
  intros H Hd E. unfold yearly_next, date_replace in E. apply py_date_ok in E.
  destruct E as (Y & C & -> & R & E1 & E2 & E3). split; [|lia].
  apply year_lt_ord; try lia.
Qed.

Lemma monthly_loop_gt F i d y m c : 1 <= i -> 1 <= d -> 1 <= y -> 1 <= m <= 12 ->
  mi d <= y * 12 + m - 1 ->
  monthly_next_loop F i d y m = Ok c -> d < c <= MAXORD.
Proof.
  revert y m. induction F as [|F IH]; intros y m Hi Hd Hy Hm Hmi E; [discriminate|].
  cbn [monthly_next_loop] in E.
  set (t := y * 12 + m - 1 + i) in *.
  destruct (date_replace d (t / 12) (t mod 12 + 1)) as [x|e|] eqn:R.
  - injection E as <-. unfold date_replace in R. apply py_date_ok in R.
    destruct R as (Y & C & -> & R & E1 & E2 & E3). split; [|lia].
    apply ord_lt_mi; try lia. unfold mi at 2. rewrite E1, E2. subst t. lia.
  - destruct e; try discriminate. apply (IH _ _) in E; try assumption; subst t; lia.
  - discriminate.
Qed.

Lemma monthly_next_gt F r d c : 1 <= r_interval r -> 1 <= d -> monthly_next F r d = Ok c -> d < c <= MAXORD.
Proof.
  intros H Hd. pose proof (year_ge1 d Hd). pose proof (month_range d Hd).
  apply monthly_loop_gt; try assumption; try lia. unfold mi. lia.
Qed.

(** ** the basic loop *)

Definition forward (next : Z -> res Z) : Prop :=
  forall d c, 1 <= d -> next d = Ok c -> d < c <= MAXORD.

Lemma basic_sorted next r ed : forward next -> forall F cur cnt, 1 <= cur ->
  StronglySorted Z.lt (fst (basic_loop F next r ed cur cnt))
  /\ Forall (fun d => cur <= d) (fst (basic_loop F next r ed cur cnt)).
Proof.
  intros Hn F. induction F as [|F IH]; intros cur cnt Hc; cbn [basic_loop].
  { split; constructor. }
  destruct (stop_check ed r cur cnt) as [[|]|e|]; try (split; constructor).
  destruct (next cur) as [c|e|] eqn:E.
  - destruct (Hn _ _ Hc E) as [L _]. specialize (IH c (cnt + 1) ltac:(lia)).
    destruct (basic_loop F next r ed c (cnt + 1)) as [l f]. cbn [fst] in *.
    destruct IH as [S1 S2].
    assert (FA : Forall (fun d => cur < d) l)
      by (eapply Forall_impl; [|exact S2]; cbn; intros; lia).
    destruct (excepted r cur); cbn [app].
    + split; [assumption|]. eapply Forall_impl; [|exact FA]; cbn; intros; lia.
    + split; constructor; try assumption; try lia.
      eapply Forall_impl; [|exact FA]; cbn; intros; lia.
  - cbn. destruct (excepted r cur); split; repeat constructor; lia.
  - cbn. destruct (excepted r cur); split; repeat constructor; lia.
Qed.

Lemma filter_gt_nil e cur l : Forall (fun d => cur <= d) l -> e < cur -> filter (bounded_ed e) l = [].
Proof.
  intros H L. apply filter_none. intros x Hx. rewrite Forall_forall in H.
  specialize (H x Hx). unfold bounded_ed. lia.
Qed.

Lemma stop_check_some e r cur cnt : stop_check (Some e) r cur cnt =
  if e <? cur then Ok true else stop_check None r cur cnt.
Proof. unfold stop_check. destruct (e <? cur); reflexivity. Qed.

Lemma basic_trunc next r e : forward next -> forall F cur cnt, 1 <= cur ->
  fst (basic_loop F next r (Some e) cur cnt)
  = filter (bounded_ed e) (fst (basic_loop F next r None cur cnt)).
Proof.
  intros Hn F. induction F as [|F IH]; intros cur cnt Hc; [reflexivity|].
  destruct (Z_lt_le_dec e cur) as [L|L].
  - rewrite (filter_gt_nil e cur); [|apply basic_sorted; assumption|assumption].
    cbn [basic_loop]. rewrite stop_check_some. replace (e <? cur) with true by lia. reflexivity.
  - cbn [basic_loop]. rewrite stop_check_some. replace (e <? cur) with false by lia.
    destruct (stop_check None r cur cnt) as [[|]|x|]; try reflexivity.
    assert (B : bounded_ed e cur = true) by (unfold bounded_ed; lia).
    destruct (next cur) as [c|x|] eqn:E.
    + destruct (Hn _ _ Hc E) as [LL _]. specialize (IH c (cnt + 1) ltac:(lia)).
      destruct (basic_loop F next r (Some e) c (cnt + 1)) as [l f].
      destruct (basic_loop F next r None c (cnt + 1)) as [l' f']. cbn [fst] in *.
      rewrite filter_app, IH. f_equal. destruct (excepted r cur); cbn; rewrite ?B; reflexivity.
    + cbn. destruct (excepted r cur); cbn; rewrite ?B; reflexivity.
    + cbn. destruct (excepted r cur); cbn; rewrite ?B; reflexivity.
Qed.

(** [extends a b]: [b] is what [a] becomes with more fuel *)
Definition gen_le (a b : gen) : Prop :=
  match snd a with
  | GMore => exists t, fst b = fst a ++ t
  | _ => b = a
  end.

Lemma gen_le_refl a : gen_le a a.
Proof. unfold gen_le. destruct (snd a); try reflexivity. exists []. now rewrite app_nil_r. Qed.

Lemma gen_le_cons o a b : gen_le a b ->
  gen_le (let (l, e) := a in (o ++ l, e)) (let (l, e) := b in (o ++ l, e)).
Proof.
  destruct a as [l f], b as [l' f']. unfold gen_le. cbn.
  destruct f; intros H; try (injection H as -> ->; reflexivity).
  destruct H as [t ->]. exists t. now rewrite app_assoc.
Qed.

Definition res_le {A} (a b : res A) : Prop := match a with OutOfFuel => True | _ => b = a end.

Lemma basic_fuel r ed next next' : (forall d, res_le (next d) (next' d)) ->
  forall F F' cur cnt, (F <= F')%nat ->
  gen_le (basic_loop F next r ed cur cnt) (basic_loop F' next' r ed cur cnt).
Proof.
  intros Hn F. induction F as [|F IH]; intros F' cur cnt HF.
  { unfold gen_le. cbn. eexists; reflexivity. }
  destruct F' as [|F']; [lia|]. cbn [basic_loop].
  destruct (stop_check ed r cur cnt) as [[|]|x|]; try apply gen_le_refl.
  specialize (Hn cur). destruct (next cur) as [c|x|] eqn:E; cbn in Hn; try rewrite Hn.
  - apply gen_le_cons. apply IH. lia.
  - apply gen_le_refl.
  - unfold gen_le. cbn [snd fst]. destruct (next' cur) as [c|x|].
    + destruct (basic_loop F' next' r ed c (cnt + 1)) as [l f]. now exists l.
    + exists []. now rewrite app_nil_r.
    + exists []. now rewrite app_nil_r.
Qed.

Lemma monthly_loop_fuel i d F : forall F' y m, (F <= F')%nat ->
  res_le (monthly_next_loop F i d y m) (monthly_next_loop F' i d y m).
Proof.
  induction F as [|F IH]; intros F' y m HF; [exact I|].
  destruct F' as [|F']; [lia|]. cbn [monthly_next_loop].
  destruct (date_replace _ _ _) as [x|e|]; cbn; try reflexivity; try exact I.
  destruct e; try reflexivity. apply IH. lia.
Qed.

Lemma weekly_fuel r wds ed s : forall F F' cur cnt, (F <= F')%nat ->
  gen_le (weekly_loop F r wds ed s cur cnt) (weekly_loop F' r wds ed s cur cnt).
Proof.
  intros F. induction F as [|F IH]; intros F' cur cnt HF.
  { unfold gen_le. cbn. eexists; reflexivity. }
  destruct F' as [|F']; [lia|]. cbn [weekly_loop].
  destruct (stop_check ed r cur cnt) as [[|]|x|]; try apply gen_le_refl.
  destruct (weekspan s cur); try apply gen_le_refl.
  destruct (r_interval r =? 0); try apply gen_le_refl.
  destruct (date_add cur 1); try apply gen_le_refl.
  apply gen_le_cons. apply IH. lia.
Qed.

Lemma index_fuel r ed wd index : forall F F' y m cnt, (F <= F')%nat ->
  gen_le (index_loop F r ed wd index y m cnt) (index_loop F' r ed wd index y m cnt).
Proof.
  intros F. induction F as [|F IH]; intros F' y m cnt HF.
  { unfold gen_le. cbn. eexists; reflexivity. }
  destruct F' as [|F']; [lia|]. cbn [index_loop].
  destruct (monthindex y m index wd) as [cur|x|]; try apply gen_le_refl.
  destruct (stop_check ed r cur cnt) as [[|]|x|]; try apply gen_le_refl.
  apply gen_le_cons. apply IH. lia.
Qed.

(** more fuel never changes what was produced: it only lets the generator go on *)
Lemma apply_fuel r dt ed F F' : (F <= F')%nat -> gen_le (apply F r dt ed) (apply F' r dt ed).
Proof.
  intros HF. unfold apply.
  destruct (r_kind r); try apply gen_le_refl;
    (destruct ed as [[e|t|]|]; try apply gen_le_refl);
    try (apply basic_fuel; [intros; destruct (_ r d); cbn; auto|assumption]);
    try (apply weekly_fuel; assumption);
    (destruct (String.eqb _ _); [|destruct (String.eqb _ _); [|destruct (String.eqb _ _)]]);
    try apply gen_le_refl;
    try (apply basic_fuel; [intros d; apply monthly_loop_fuel; assumption|assumption]);
    apply index_fuel; assumption.
Qed.

(** ** the weekly loop *)

Lemma weekly_sorted r wds ed s : forall F cur cnt,
  StronglySorted Z.lt (fst (weekly_loop F r wds ed s cur cnt))
  /\ Forall (fun d => cur <= d) (fst (weekly_loop F r wds ed s cur cnt)).
Proof.
  intros F. induction F as [|F IH]; intros cur cnt; cbn [weekly_loop].
  { split; constructor. }
  destruct (stop_check ed r cur cnt) as [[|]|e|]; try (split; constructor).
  destruct (weekspan s cur) as [ws|e|]; try (split; constructor).
  destruct (r_interval r =? 0); try (split; constructor).
  set (hit := _ && z_in _ _).
  unfold date_add. destruct ((1 <=? cur + 1) && _).
  - specialize (IH (cur + 1) (if hit then cnt + 1 else cnt)).
    destruct (weekly_loop F r wds ed s (cur + 1) _) as [l f]. cbn [fst] in *.
    destruct IH as [S1 S2].
    assert (FA : Forall (fun d => cur < d) l)
      by (eapply Forall_impl; [|exact S2]; cbn; intros; lia).
    destruct (hit && negb (excepted r cur)); cbn [app].
    + split; constructor; try assumption; try lia.
      eapply Forall_impl; [|exact FA]; cbn; intros; lia.
    + split; [assumption|]. eapply Forall_impl; [|exact FA]; cbn; intros; lia.
  - cbn. destruct (hit && negb (excepted r cur)); split; repeat constructor; lia.
Qed.

Lemma weekly_trunc r wds e s : forall F cur cnt,
  fst (weekly_loop F r wds (Some e) s cur cnt)
  = filter (bounded_ed e) (fst (weekly_loop F r wds None s cur cnt)).
Proof.
  intros F. induction F as [|F IH]; intros cur cnt; [reflexivity|].
  destruct (Z_lt_le_dec e cur) as [L|L].
  - rewrite (filter_gt_nil e cur); [|apply weekly_sorted|assumption].
    cbn [weekly_loop]. rewrite stop_check_some. replace (e <? cur) with true by lia. reflexivity.
  - cbn [weekly_loop]. rewrite stop_check_some. replace (e <? cur) with false by lia.
    destruct (stop_check None r cur cnt) as [[|]|x|]; try reflexivity.
    destruct (weekspan s cur) as [ws|x|]; try reflexivity.
    destruct (r_interval r =? 0); try reflexivity.
    assert (B : bounded_ed e cur = true) by (unfold bounded_ed; lia).
    set (hit := _ && z_in _ _).
    destruct (date_add cur 1) as [c|x|] eqn:E.
    + specialize (IH c (if hit then cnt + 1 else cnt)).
      destruct (weekly_loop F r wds (Some e) s c _) as [l f].
      destruct (weekly_loop F r wds None s c _) as [l' f']. cbn [fst] in *.
      rewrite filter_app, IH. f_equal. destruct (hit && negb (excepted r cur)); cbn; rewrite ?B; reflexivity.
    + cbn. destruct (hit && negb (excepted r cur)); cbn; rewrite ?B; reflexivity.
    + cbn. destruct (hit && negb (excepted r cur)); cbn; rewrite ?B; reflexivity.
Qed.

(** ** the index loops *)

Lemma find_first_day_inv n y m wd day x : find_first_day n y m wd day = Ok x -> (1 <= n)%nat ->
  1 <= y <= MAXYEAR /\ 1 <= m <= 12.
Proof.
  destruct n as [|n]; [lia|]. cbn [find_first_day]. intros E _.
  destruct (py_date y m day) as [o|e|] eqn:P; try discriminate.
  apply py_date_ok in P. destruct P as (P1 & [P2 _] & _). split; lia.
Qed.

Lemma monthindex_inv k index wd a b x :
  (1 <= index /\ a = 0 /\ b = index - 1) \/ (index < 0 /\ a = 1 /\ b = index) ->
  0 <= wd <= 6 -> monthindex (k / 12) (k mod 12 + 1) index wd = Ok x ->
  x = fw (k + a) wd + 7 * b /\ 12 <= k + a /\ k + a <= 12 * 9999 + 11 /\ 1 <= x <= MAXORD.
Proof.
  intros H Hw E. unfold monthindex in E.
  assert (EE : (if index <? 0
     then (k / 12 + (k mod 12 + 1) / 12, (k mod 12 + 1) mod 12 + 1, index + 1)
     else (k / 12, k mod 12 + 1, index)) = ((k + a) / 12, (k + a) mod 12 + 1, b + 1)).
  { destruct H as [(H & -> & ->)|(H & -> & ->)].
    - replace (index <? 0) with false by lia. rewrite Z.add_0_r. f_equal; lia.
    - replace (index <? 0) with true by lia. f_equal; f_equal; lia. }
  rewrite EE in E. clear EE.
  destruct (find_first_day 7 ((k + a) / 12) ((k + a) mod 12 + 1) wd 1) as [day|e|] eqn:FD; try discriminate.
  destruct (find_first_day_inv _ _ _ _ _ _ FD ltac:(lia)) as [Y M].
  unfold MAXYEAR in Y.
  rewrite find_first_day_ok in FD by (unfold MAXYEAR; lia).
  injection FD as <-. cbn [rbind] in E.
  set (j := (wd - weekday (month_start (k + a))) mod 7) in *.
  assert (0 <= j < 7) by (subst j; lia).
  pose proof (dim_range ((k + a) / 12) ((k + a) mod 12 + 1)).
  rewrite py_date_valid in E; [|unfold MAXYEAR; lia|split; lia]. cbn [rbind] in E.
  rewrite ymd2ord_month_start in E.
  replace (month_start (k + a) + (j + 1) - 1) with (fw (k + a) wd) in E by (unfold fw; fold j; lia).
  unfold date_add in E. destruct (_ && _) eqn:R; [|discriminate].
  injection E as <-. lia.
Qed.

Lemma index_sorted r ed wd index a b :
  (1 <= index /\ a = 0 /\ b = index - 1) \/ (index < 0 /\ a = 1 /\ b = index) ->
  0 <= wd <= 6 -> 1 <= r_interval r ->
  forall F k cnt, 12 <= k ->
  StronglySorted Z.lt (fst (index_loop F r ed wd index (k / 12) (k mod 12 + 1) cnt))
  /\ Forall (fun d => fw (k + a) wd + 7 * b <= d)
            (fst (index_loop F r ed wd index (k / 12) (k mod 12 + 1) cnt)).
Proof.
  intros Hi Hw Hn F. induction F as [|F IH]; intros k cnt Hk; cbn [index_loop].
  { split; constructor. }
  destruct (monthindex (k / 12) (k mod 12 + 1) index wd) as [cur|x|] eqn:M; try (split; constructor).
  apply (monthindex_inv k index wd a b) in M; try assumption.
  destruct (stop_check ed r cur cnt) as [[|]|e|]; try (split; constructor).
  replace (k / 12 * 12 + (k mod 12 + 1) + r_interval r - 1) with (k + r_interval r) by lia.
  specialize (IH (k + r_interval r) (cnt + 1) ltac:(lia)).
  destruct (index_loop F r ed wd index _ _ (cnt + 1)) as [l f]. cbn [fst] in *.
  destruct IH as [S1 S2].
  pose proof (fw_lt (k + a) (k + r_interval r + a) wd ltac:(lia) ltac:(lia) Hw).
  assert (FA : Forall (fun d => cur < d) l)
    by (destruct M as (-> & _); eapply Forall_impl; [|exact S2]; cbn; intros; lia).
  destruct M as (-> & _).
  destruct (excepted r _); cbn [app].
  + split; [assumption|]. eapply Forall_impl; [|exact FA]; cbn; intros; lia.
  + split; constructor; try assumption; try lia.
    eapply Forall_impl; [|exact FA]; cbn; intros; lia.
Qed.

Lemma index_trunc r wd index a b e :
  (1 <= index /\ a = 0 /\ b = index - 1) \/ (index < 0 /\ a = 1 /\ b = index) ->
  0 <= wd <= 6 -> 1 <= r_interval r ->
  forall F k cnt, 12 <= k ->
  fst (index_loop F r (Some e) wd index (k / 12) (k mod 12 + 1) cnt)
  = filter (bounded_ed e) (fst (index_loop F r None wd index (k / 12) (k mod 12 + 1) cnt)).
Proof.
  intros Hi Hw Hn F. induction F as [|F IH]; intros k cnt Hk; [reflexivity|].
  destruct (Z_lt_le_dec e (fw (k + a) wd + 7 * b)) as [L|L].
  - rewrite (filter_gt_nil e (fw (k + a) wd + 7 * b)); [|now apply index_sorted|assumption].
    cbn [index_loop].
    destruct (monthindex (k / 12) (k mod 12 + 1) index wd) as [cur|x|] eqn:M; try reflexivity.
    apply (monthindex_inv k index wd a b) in M; try assumption. destruct M as (-> & _).
    rewrite stop_check_some. replace (e <? _) with true by lia. reflexivity.
  - cbn [index_loop].
    destruct (monthindex (k / 12) (k mod 12 + 1) index wd) as [cur|x|] eqn:M; try reflexivity.
    apply (monthindex_inv k index wd a b) in M; try assumption. destruct M as (-> & _).
    rewrite stop_check_some. replace (e <? _) with false by lia.
    destruct (stop_check None r _ cnt) as [[|]|x|]; try reflexivity.
    replace (k / 12 * 12 + (k mod 12 + 1) + r_interval r - 1) with (k + r_interval r) by lia.
    specialize (IH (k + r_interval r) (cnt + 1) ltac:(lia)).
    destruct (index_loop F r (Some e) wd index _ _ (cnt + 1)) as [l f].
    destruct (index_loop F r None wd index _ _ (cnt + 1)) as [l' f']. cbn [fst] in *.
    assert (B : bounded_ed e (fw (k + a) wd + 7 * b) = true) by (unfold bounded_ed; lia).
    rewrite filter_app, IH. f_equal. destruct (excepted r _); cbn [filter]; rewrite ?B; reflexivity.
Qed.

(** ** all rules *)

Lemma forward_basic r : 1 <= r_interval r -> forward (basic_next r).
Proof. intros H d c _ E. now apply (basic_next_gt r). Qed.
Lemma forward_yearly r : 1 <= r_interval r -> forward (yearly_next r).
Proof. intros H d c Hd E. now apply (yearly_next_gt r). Qed.
Lemma forward_monthly F r : 1 <= r_interval r -> forward (monthly_next F r).
Proof. intros H d c Hd E. now apply (monthly_next_gt F r). Qed.

Lemma last_index s : (day_of s - days_in_month (year_of s) (month_of s) - 1) / 7 = - (nth_last_weekday s + 1).
Proof. unfold nth_last_weekday. lia. Qed.

Lemma index_args s : 1 <= s ->
  (1 <= nth_weekday s + 1 /\ 0 = 0 /\ nth_weekday s = nth_weekday s + 1 - 1)
  \/ (nth_weekday s + 1 < 0 /\ 0 = 1 /\ nth_weekday s = nth_weekday s + 1).
Proof. intros H. pose proof (nth_range s H). lia. Qed.

Lemma last_args s : 1 <= s ->
  let i := - (nth_last_weekday s + 1) in
  (1 <= i /\ 1 = 0 /\ i = i - 1) \/ (i < 0 /\ 1 = 1 /\ i = i).
Proof. intros H. pose proof (nth_last_range s H). lia. Qed.

Lemma apply_weekday_eq F r s ed : 1 <= s ->
  apply_weekday F r s ed
  = index_loop F r ed (weekday s) (nth_weekday s + 1) (mi s / 12) (mi s mod 12 + 1) 0.
Proof. intros H. destruct (mi_div s H) as [-> ->]. reflexivity. Qed.

Lemma apply_lastweekday_eq F r s ed : 1 <= s ->
  apply_lastweekday F r s ed
  = index_loop F r ed (weekday s) (- (nth_last_weekday s + 1)) (mi s / 12) (mi s mod 12 + 1) 0.
Proof.
  intros H. destruct (mi_div s H) as [-> ->]. unfold apply_lastweekday. now rewrite last_index.
Qed.

Lemma apply_weekday_sorted F r s ed : 1 <= r_interval r -> 1 <= s ->
  StronglySorted Z.lt (fst (apply_weekday F r s ed)) /\ Forall (fun d => s <= d) (fst (apply_weekday F r s ed)).
Proof.
  intros Hi Hs. rewrite apply_weekday_eq by assumption.
  pose proof (index_sorted r ed (weekday s) (nth_weekday s + 1) 0 (nth_weekday s)
              (index_args s Hs) (weekday_range s) Hi F (mi s) 0 (mi_ge12 s Hs)) as K.
  rewrite Z.add_0_r, <- start_is_fw in K by assumption. exact K.
Qed.

Lemma apply_lastweekday_sorted F r s ed : 1 <= r_interval r -> 1 <= s ->
  StronglySorted Z.lt (fst (apply_lastweekday F r s ed))
  /\ Forall (fun d => s <= d) (fst (apply_lastweekday F r s ed)).
Proof.
  intros Hi Hs. rewrite apply_lastweekday_eq by assumption.
  pose proof (index_sorted r ed (weekday s) (- (nth_last_weekday s + 1)) 1 (- (nth_last_weekday s + 1))
              (last_args s Hs) (weekday_range s) Hi F (mi s) 0 (mi_ge12 s Hs)) as K.
  rewrite <- start_is_fw_last in K by assumption. exact K.
Qed.

Lemma apply_sorted F r dt ed : 1 <= r_interval r -> 1 <= dt_date dt ->
  StronglySorted Z.lt (fst (apply F r dt ed)) /\ Forall (fun d => dt_date dt <= d) (fst (apply F r dt ed)).
Proof.
  intros Hi Hs. unfold apply. set (s := dt_date dt) in *.
  assert (NIL : forall f, StronglySorted Z.lt (fst (([] : list Z), f : fin)) /\ Forall (fun d => s <= d) (fst (([] : list Z), f)))
    by (intros; split; constructor).
  destruct (r_kind r); try (split; repeat constructor; lia);
    (destruct ed as [[e|t|]|]; try apply NIL);
    try (apply basic_sorted; [first [now apply forward_basic|now apply forward_yearly]|assumption]);
    try apply weekly_sorted;
    (destruct (String.eqb _ _); [|destruct (String.eqb _ _); [|destruct (String.eqb _ _)]]);
    try apply NIL;
    try (apply basic_sorted; [now apply forward_monthly|assumption]);
    first [now apply apply_weekday_sorted|now apply apply_lastweekday_sorted].
Qed.

(** an end date only cuts the sequence off *)
Lemma apply_trunc F r dt e : r_kind r <> KNo -> 1 <= r_interval r -> 1 <= dt_date dt ->
  fst (apply F r dt (Some (VDate e))) = filter (bounded_ed e) (fst (apply F r dt None)).
Proof.
  intros K Hi Hs. unfold apply. set (s := dt_date dt) in *.
  destruct (r_kind r); try congruence;
    try (apply basic_trunc; [first [now apply forward_basic|now apply forward_yearly]|assumption]);
    try apply weekly_trunc;
    (destruct (String.eqb _ _); [|destruct (String.eqb _ _); [|destruct (String.eqb _ _)]]);
    try reflexivity;
    try (apply basic_trunc; [now apply forward_monthly|assumption]).
  - rewrite !apply_weekday_eq by assumption.
    apply (index_trunc r (weekday s) (nth_weekday s + 1) 0 (nth_weekday s) e (index_args s Hs));
      [apply weekday_range|assumption|now apply mi_ge12].
  - rewrite !apply_lastweekday_eq by assumption.
    apply (index_trunc r (weekday s) _ 1 _ e (last_args s Hs));
      [apply weekday_range|assumption|now apply mi_ge12].
Qed.

(** ** termination *)

Lemma basic_terminates next r ed : 
  (forall G, forward (next G)) ->
  (exists N, forall d G, 1 <= d <= MAXORD -> (N <= G)%nat -> next G d <> OutOfFuel) ->
  exists N, forall F cur cnt, 1 <= cur <= MAXORD -> (N <= F)%nat ->
    snd (basic_loop F (next F) r ed cur cnt) <> GMore.
Proof.
  intros Hf [N HN].
  assert (A : forall n cur cnt F G, n = Z.to_nat (MAXORD - cur) -> 1 <= cur <= MAXORD ->
             (S n <= F)%nat -> (N <= G)%nat -> snd (basic_loop F (next G) r ed cur cnt) <> GMore).
  { induction n as [n IH] using lt_wf_ind. intros cur cnt F G En Hc HF HG.
    destruct F as [|F]; [lia|]. cbn [basic_loop].
    destruct (stop_check ed r cur cnt) as [[|]|x|] eqn:S; try (cbn; discriminate).
    - specialize (HN cur G Hc HG). destruct (next G cur) as [c|x|] eqn:E; try congruence.
      + destruct (Hf G cur c ltac:(lia) E) as [L1 L2].
        specialize (IH (Z.to_nat (MAXORD - c)) ltac:(lia) c (cnt + 1) F G eq_refl ltac:(lia) ltac:(lia) HG).
        destruct (basic_loop F (next G) r ed c (cnt + 1)). exact IH.
      + cbn. discriminate.
    - exfalso. unfold stop_check in S.
      destruct ed as [e|]; [destruct (e <? cur)|]; try discriminate;
      (destruct (r_count r) as [c|]; [destruct (c <=? cnt)|]; try discriminate;
       destruct (r_until r) as [[]|]; discriminate). }
  exists (N + S (Z.to_nat MAXORD))%nat. intros F cur cnt Hc HF.
  apply (A (Z.to_nat (MAXORD - cur))); try assumption; try reflexivity; lia.
Qed.

Lemma stop_check_nofuel ed r cur cnt : stop_check ed r cur cnt <> OutOfFuel.
Proof.
  unfold stop_check.
  destruct ed as [e|]; [destruct (e <? cur)|]; try discriminate;
  (destruct (r_count r) as [c|]; [destruct (c <=? cnt)|]; try discriminate;
   destruct (r_until r) as [[]|]; discriminate).
Qed.

Lemma py_date_nofuel y m d : py_date y m d <> OutOfFuel.
Proof. unfold py_date. destruct (negb _); [discriminate|]. destruct (valid_ymd _ _ _); discriminate. Qed.

Lemma monthly_loop_terminates i d : 1 <= i -> 1 <= d ->
  forall n y m, 0 <= y -> 1 <= m <= 12 -> n = Z.to_nat (12 * (INT_MAX + 2) - (12 * y + m)) ->
  forall F, (S n <= F)%nat -> monthly_next_loop F i d y m <> OutOfFuel.
Proof.
  intros Hi Hd n. induction n as [n IH] using lt_wf_ind. intros y m Hy Hm En F HF.
  destruct F as [|F]; [lia|]. cbn [monthly_next_loop].
  set (t := y * 12 + m - 1 + i).
  pose proof (py_date_nofuel (t / 12) (t mod 12 + 1) (day_of d)) as NF.
  unfold date_replace.
  destruct (py_date (t / 12) (t mod 12 + 1) (day_of d)) as [x|e|] eqn:E; try discriminate; [|contradiction].
  destruct e; try discriminate.
  assert (t / 12 <= INT_MAX).
  { unfold py_date in E. destruct (c_int (t / 12)) eqn:C.
    - unfold c_int in C. lia.
    - discriminate. }
  apply (IH (Z.to_nat (12 * (INT_MAX + 2) - (12 * (t / 12) + (t mod 12 + 1))))); try lia; subst t; lia.
Qed.

Lemma weekly_terminates r wds ed s : forall n cur cnt F, n = Z.to_nat (MAXORD - cur) -> 1 <= cur <= MAXORD ->
  (S n <= F)%nat -> snd (weekly_loop F r wds ed s cur cnt) <> GMore.
Proof.
  induction n as [n IH] using lt_wf_ind. intros cur cnt F En Hc HF.
  destruct F as [|F]; [lia|]. cbn [weekly_loop].
  pose proof (stop_check_nofuel ed r cur cnt).
  destruct (stop_check ed r cur cnt) as [[|]|x|] eqn:S; try congruence; try (cbn; discriminate).
  assert (W : weekspan s cur <> OutOfFuel).
  { unfold weekspan, date_add.
    destruct (_ && _); cbn; [|discriminate]. destruct (_ && _); cbn; discriminate. }
  destruct (weekspan s cur) as [ws|x|]; try congruence; try (cbn; discriminate).
  destruct (r_interval r =? 0); [cbn; discriminate|].
  set (hit := _ && z_in _ _).
  unfold date_add. destruct ((1 <=? cur + 1) && _) eqn:E; [|cbn; discriminate].
  specialize (IH (Z.to_nat (MAXORD - (cur + 1))) ltac:(lia) (cur + 1) (if hit then cnt + 1 else cnt) F
                eq_refl ltac:(lia) ltac:(lia)).
  destruct (weekly_loop F r wds ed s (cur + 1) _). exact IH.
Qed.

Lemma monthindex_nofuel y m i wd : monthindex y m i wd <> OutOfFuel.
Proof.
  unfold monthindex. destruct (if i <? 0 then _ else _) as [[y' m'] i'].
  assert (A : forall n day, find_first_day n y' m' wd day <> OutOfFuel).
  { induction n as [|n IH]; intros day; cbn [find_first_day]; [discriminate|].
    pose proof (py_date_nofuel y' m' day). destruct (py_date y' m' day) as [o|e|]; cbn; try congruence.
    destruct (weekday o =? wd); [discriminate|apply IH]. }
  specialize (A 7%nat 1). destruct (find_first_day 7 y' m' wd 1) as [day|e|]; cbn; try congruence.
  pose proof (py_date_nofuel y' m' day). destruct (py_date y' m' day) as [o|e|]; cbn; try congruence.
  unfold date_add. destruct (_ && _); discriminate.
Qed.

Lemma index_terminates r ed wd index a b :
  (1 <= index /\ a = 0 /\ b = index - 1) \/ (index < 0 /\ a = 1 /\ b = index) ->
  0 <= wd <= 6 -> 1 <= r_interval r ->
  forall n k cnt F, n = Z.to_nat (12 * 10000 - k) -> 12 <= k -> (S n <= F)%nat ->
  snd (index_loop F r ed wd index (k / 12) (k mod 12 + 1) cnt) <> GMore.
Proof.
  intros Hi Hw Hn. induction n as [n IH] using lt_wf_ind. intros k cnt F En Hk HF.
  destruct F as [|F]; [lia|]. cbn [index_loop].
  pose proof (monthindex_nofuel (k / 12) (k mod 12 + 1) index wd).
  destruct (monthindex (k / 12) (k mod 12 + 1) index wd) as [cur|x|] eqn:M; try congruence; try (cbn; discriminate).
  apply (monthindex_inv k index wd a b) in M; try assumption.
  pose proof (stop_check_nofuel ed r cur cnt).
  destruct (stop_check ed r cur cnt) as [[|]|x|] eqn:S; try congruence; try (cbn; discriminate).
  replace (k / 12 * 12 + (k mod 12 + 1) + r_interval r - 1) with (k + r_interval r) by lia.
  specialize (IH (Z.to_nat (12 * 10000 - (k + r_interval r))) ltac:(lia) (k + r_interval r) (cnt + 1) F
                eq_refl ltac:(lia) ltac:(lia)).
  destruct (index_loop F r ed wd index _ _ (cnt + 1)). exact IH.
Qed.

Lemma apply_terminates r dt ed : 1 <= r_interval r -> 1 <= dt_date dt <= MAXORD ->
  exists N, forall F, (N <= F)%nat -> snd (apply F r dt ed) <> GMore.
Proof.
  intros Hi Hs. unfold apply. set (s := dt_date dt) in *.
  assert (NIL : forall g : gen, snd g <> GMore -> exists N, forall F, (N <= F)%nat -> snd g <> GMore)
    by (intros; exists 0%nat; auto).
  assert (BN : forall d : Z, basic_next r d <> OutOfFuel)
    by (intros; unfold basic_next, date_add; destruct (_ && _); discriminate).
  assert (YN : forall d : Z, yearly_next r d <> OutOfFuel)
    by (intros; unfold yearly_next, date_replace; apply py_date_nofuel).
  assert (B : forall ed', exists N, forall F, (N <= F)%nat -> snd (basic_loop F (basic_next r) r ed' s 0) <> GMore).
  { intros ed'. destruct (basic_terminates (fun _ => basic_next r) r ed') as [N HN].
    - intros _. now apply forward_basic.
    - exists 0%nat. intros; apply BN.
    - exists N. intros; now apply HN. }
  assert (Y : forall ed', exists N, forall F, (N <= F)%nat -> snd (basic_loop F (yearly_next r) r ed' s 0) <> GMore).
  { intros ed'. destruct (basic_terminates (fun _ => yearly_next r) r ed') as [N HN].
    - intros _. now apply forward_yearly.
    - exists 0%nat. intros; apply YN.
    - exists N. intros; now apply HN. }
  assert (M : forall ed', exists N, forall F, (N <= F)%nat -> snd (basic_loop F (monthly_next F r) r ed' s 0) <> GMore).
  { intros ed'. destruct (basic_terminates (fun G => monthly_next G r) r ed') as [N HN].
    - intros G. now apply forward_monthly.
    - exists (S (Z.to_nat (12 * (INT_MAX + 2)))). intros d G Hd HG. unfold monthly_next.
      pose proof (year_ge1 d ltac:(lia)). pose proof (month_range d ltac:(lia)).
      eapply monthly_loop_terminates; try reflexivity; lia.
    - exists N. intros; now apply HN. }
  assert (W : forall ed', exists N, forall F, (N <= F)%nat ->
            snd (weekly_loop F r (weekday s :: r_weekdays r) ed' s s 0) <> GMore).
  { intros ed'. exists (S (Z.to_nat (MAXORD - s))). intros F HF.
    now apply (weekly_terminates _ _ _ _ (Z.to_nat (MAXORD - s))). }
  assert (I1 : forall ed', exists N, forall F, (N <= F)%nat -> snd (apply_weekday F r s ed') <> GMore).
  { intros ed'. exists (S (Z.to_nat (12 * 10000 - mi s))). intros F HF.
    rewrite apply_weekday_eq by lia.
    apply (index_terminates r ed' (weekday s) (nth_weekday s + 1) 0 (nth_weekday s)
             (index_args s ltac:(lia)) (weekday_range s) Hi _ (mi s) 0 F eq_refl (mi_ge12 s ltac:(lia)) HF). }
  assert (I2 : forall ed', exists N, forall F, (N <= F)%nat -> snd (apply_lastweekday F r s ed') <> GMore).
  { intros ed'. exists (S (Z.to_nat (12 * 10000 - mi s))). intros F HF.
    rewrite apply_lastweekday_eq by lia.
    apply (index_terminates r ed' (weekday s) _ 1 _
             (last_args s ltac:(lia)) (weekday_range s) Hi _ (mi s) 0 F eq_refl (mi_ge12 s ltac:(lia)) HF). }
  destruct (r_kind r); try (apply NIL; cbn; discriminate);
    (destruct ed as [[e|t|]|]; try (apply NIL; cbn; discriminate));
    try apply B; try apply Y; try apply W;
    (destruct (String.eqb _ _); [|destruct (String.eqb _ _); [|destruct (String.eqb _ _)]]);
    try apply M; try apply I1; try apply I2; apply NIL; cbn; discriminate.
Qed.

(** every rule has one definite outcome *)
Lemma apply_outcome r dt ed : 1 <= r_interval r -> 1 <= dt_date dt <= MAXORD ->
  exists N out f, f <> GMore /\ forall F, (N <= F)%nat -> apply F r dt ed = (out, f).
Proof.
  intros Hi Hs. destruct (apply_terminates r dt ed Hi Hs) as [N HN].
  exists N, (fst (apply N r dt ed)), (snd (apply N r dt ed)).
  split; [apply HN; lia|]. intros F HF.
  pose proof (apply_fuel r dt ed N F HF) as G. specialize (HN N ltac:(lia)).
  unfold gen_le in G. destruct (apply N r dt ed) as [l f]. cbn in *.
  destruct f; try congruence; assumption.
Qed.
