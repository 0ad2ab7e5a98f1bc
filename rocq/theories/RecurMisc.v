(** Further lemmas about the recurrence rules: validation, equality, first
    repetition, divergence, week distance and month index. *)
From Verif Require Import Base PyDate DateFacts Recurrent SpecRecur RecurProofs RecurExact RecurMain RecurOrder RecurSound.
From Coq Require Import ZifyBool.
Ltac Zify.zify_post_hook ::= Z.div_mod_to_equations.
Local Opaque ord2ymd year_of month_of day_of ymd2ord days_in_month is_leap.

(** ** validation *)
Definition args_ok (k : kind) (interval : Z) (count : option Z) (until : option dval)
  (exceptions : list dval) (weekdays : list Z) (monthly : string) : Prop :=
  ~ (count <> None /\ until <> None) /\ 1 <= interval
  /\ (forall v, In v exceptions -> v <> VOther)
  /\ (k = KWeekly -> forall d, In d weekdays -> 0 <= d <= 6)
  /\ (k = KMonthly -> In monthly ["monthday"; "weekday"; "lastweekday"]%string).

Lemma forallb_false {A} (p : A -> bool) l : forallb p l = false -> exists x, In x l /\ p x = false.
Proof.
  induction l as [|a l IH]; [discriminate|]. cbn [forallb]. destruct (p a) eqn:E.
  - intros H. destruct (IH H) as [x [X1 X2]]. exists x. split; [now right|assumption].
  - intros _. exists a. split; [now left|assumption].
Qed.

Lemma basic_validate_dec r :
  (basic_validate r = Ok tt /\ ~ (r_count r <> None /\ r_until r <> None) /\ 1 <= r_interval r
     /\ (forall v, In v (r_exceptions r) -> v <> VOther))
  \/ (basic_validate r = Raise ValueError /\
      ~ (~ (r_count r <> None /\ r_until r <> None) /\ 1 <= r_interval r
     /\ (forall v, In v (r_exceptions r) -> v <> VOther))).
Proof.
  unfold basic_validate.
  destruct (r_count r) as [c|] eqn:C, (r_until r) as [u|] eqn:U;
    [right; split; [reflexivity|]; intros [X _]; apply X; split; discriminate | | | ].
  all: destruct (negb (1 <=? r_interval r)) eqn:N; [right; split; [reflexivity|]; intros (_ & X & _); lia|].
  all: destruct (forallb is_date_instance (r_exceptions r)) eqn:Fo.
  all: try (left; split; [reflexivity|]; split; [intros [X Y]; congruence|]; split; [lia|];
    intros v Hv ->; rewrite forallb_forall in Fo; specialize (Fo _ Hv); discriminate).
  all: right; split; [reflexivity|]; intros (_ & _ & X);
    apply forallb_false in Fo as [v [V1 V2]]; destruct v; try discriminate; exact (X _ V1 eq_refl).
Qed.

Lemma mk_rule_spec k i c u ex wds m :
  (args_ok k i c u ex wds m /\ exists r, mk_rule k i c u ex wds m = Ok r
     /\ r_kind r = k /\ r_interval r = i /\ r_count r = c /\ r_until r = u /\ r_exceptions r = ex
     /\ (k = KWeekly -> r_weekdays r = wds) /\ (k = KMonthly -> r_monthly r = m))
  \/ (~ args_ok k i c u ex wds m /\ mk_rule k i c u ex wds m = Raise ValueError).
Proof.
  unfold mk_rule, args_ok.
  set (r := mkRule _ _ _ _ _ _ _).
  destruct (basic_validate_dec r) as [(B & P1 & P2 & P3)|(B & P)]; cbn in P1, P2, P3 || cbn in P.
  - destruct k; unfold validate; cbn [r r_kind]; fold r; rewrite B; cbn [rbind].
    5: { destruct (forallb (fun d : Z => (0 <=? d) && (d <=? 6)) (r_weekdays r)) eqn:Fo; cbn [rbind].
      - left. split.
        + split; [exact P1|]. split; [exact P2|]. split; [exact P3|]. split; [|discriminate].
          intros _ d Hd. rewrite forallb_forall in Fo. specialize (Fo d Hd). lia.
        + exists r. repeat split; auto; discriminate.
      - right. split; [|reflexivity]. intros (_ & _ & _ & X & _). specialize (X eq_refl).
        apply forallb_false in Fo as [d [D1 D2]]. specialize (X d D1). lia. }
    5: { destruct (str_in (r_monthly r) ["monthday"; "weekday"; "lastweekday"]%string) eqn:Fo; cbn [rbind].
      - left. split.
        + split; [exact P1|]. split; [exact P2|]. split; [exact P3|]. split; [discriminate|].
          intros _. unfold str_in in Fo. apply existsb_exists in Fo as [x [X1 X2]]. apply String.eqb_eq in X2.
          cbn [r r_monthly] in X2. subst x. exact X1.
        + exists r. repeat split; auto; discriminate.
      - right. split; [|reflexivity]. intros (_ & _ & _ & _ & X). specialize (X eq_refl).
        assert (str_in m ["monthday"; "weekday"; "lastweekday"]%string = true).
        { unfold str_in. apply existsb_exists. exists m. split; [assumption|apply String.eqb_refl]. }
        cbn [r r_monthly] in Fo. congruence. }
    all: left; split; [repeat split; try assumption; discriminate | exists r; repeat split; auto; discriminate].
  - right. split.
    + intros (X1 & X2 & X3 & _). apply P. auto.
    + unfold validate. destruct k; cbn [r r_kind]; fold r; rewrite B; reflexivity.
Qed.

Lemma mk_rule_valid k i c u ex wds m r : mk_rule k i c u ex wds m = Ok r -> valid_rule r.
Proof.
  unfold mk_rule, valid_rule. set (r' := mkRule _ _ _ _ _ _ _).
  destruct (validate r') as [[]|x|] eqn:E; cbn [rbind]; intros X; try discriminate.
  injection X as <-. exact E.
Qed.

Lemma replace_is r i c u ex wds m :
  replace r i c u ex wds m =
  mk_rule (r_kind r) (match i with Some x => x | None => r_interval r end)
    (match c with Some x => x | None => r_count r end)
    (match u with Some x => x | None => r_until r end)
    (match ex with Some x => x | None => r_exceptions r end)
    (match wds with Some x => x | None => r_weekdays r end)
    (match m with Some x => x | None => r_monthly r end).
Proof. reflexivity. Qed.

(** ** equality *)
Lemma dval_eqb_eq a b : dval_eqb a b = true <-> a = b.
Proof.
  destruct a, b; cbn [dval_eqb]; rewrite ?Z.eqb_eq; split; intros X; try discriminate; try congruence.
Qed.

Lemma list_eqb_eq {A} (eqb : A -> A -> bool) : (forall a b, eqb a b = true <-> a = b) ->
  forall l1 l2, list_eqb eqb l1 l2 = true <-> l1 = l2.
Proof.
  intros H l1. induction l1 as [|a l1 IH]; intros [|b l2]; cbn [list_eqb]; split; intros X;
    try discriminate; try reflexivity.
  - apply andb_true_iff in X as [X1 X2]. apply H in X1. apply IH in X2. congruence.
  - injection X as -> ->. apply andb_true_iff. split; [now apply H|now apply IH].
Qed.

Lemma opt_eqb_eq {A} (eqb : A -> A -> bool) : (forall a b, eqb a b = true <-> a = b) ->
  forall a b, opt_eqb eqb a b = true <-> a = b.
Proof.
  intros H [a|] [b|]; cbn [opt_eqb]; split; intros X; try discriminate; try reflexivity.
  - apply H in X. congruence.
  - apply H. congruence.
Qed.

Lemma extra_eqb_eq a b : extra_eqb a b = true <-> a = b.
Proof.
  destruct a, b; cbn [extra_eqb]; split; intros X; try discriminate; try reflexivity.
  - apply (list_eqb_eq Z.eqb Z.eqb_eq) in X. congruence.
  - apply (list_eqb_eq Z.eqb Z.eqb_eq). congruence.
  - apply String.eqb_eq in X. congruence.
  - apply String.eqb_eq. congruence.
Qed.

Lemma kind_eqb_eq a b : kind_eqb a b = true <-> a = b.
Proof. destruct a, b; cbn; split; intros; congruence. Qed.

Lemma rule_eq_tuple a b : rule_eq a b = true <-> tuple_for_comparison a = tuple_for_comparison b.
Proof.
  unfold rule_eq, rtuple_eqb.
  destruct (tuple_for_comparison a) as [[[[[k1 i1] c1] u1] e1] x1].
  destruct (tuple_for_comparison b) as [[[[[k2 i2] c2] u2] e2] x2].
  rewrite !andb_true_iff, kind_eqb_eq, Z.eqb_eq, (opt_eqb_eq _ Z.eqb_eq),
    (opt_eqb_eq _ dval_eqb_eq), (list_eqb_eq _ dval_eqb_eq), extra_eqb_eq.
  split; [intros (((((-> & ->) & ->) & ->) & ->) & ->); reflexivity|].
  intros X. injection X. intros; subst. auto 10.
Qed.

Lemma stop_check_ext a b ed cur cnt : r_count a = r_count b -> r_until a = r_until b ->
  stop_check ed a cur cnt = stop_check ed b cur cnt.
Proof. intros C U. unfold stop_check. now rewrite C, U. Qed.

Lemma excepted_ext a b cur : r_exceptions a = r_exceptions b -> excepted a cur = excepted b cur.
Proof. intros E. unfold excepted. now rewrite E. Qed.

Lemma basic_loop_ext a b next next' ed :
  r_count a = r_count b -> r_until a = r_until b -> r_exceptions a = r_exceptions b ->
  (forall d, next d = next' d) ->
  forall F cur cnt, basic_loop F next a ed cur cnt = basic_loop F next' b ed cur cnt.
Proof.
  intros C U E N F. induction F as [|F IH]; intros cur cnt; [reflexivity|]. cbn [basic_loop].
  rewrite (stop_check_ext a b), (excepted_ext a b), N by assumption.
  destruct (stop_check ed b cur cnt) as [[]| |]; try reflexivity.
  destruct (next' cur); try reflexivity. now rewrite IH.
Qed.

Lemma weekly_loop_ext a b wds ed s :
  r_count a = r_count b -> r_until a = r_until b -> r_exceptions a = r_exceptions b ->
  r_interval a = r_interval b ->
  forall F cur cnt, weekly_loop F a wds ed s cur cnt = weekly_loop F b wds ed s cur cnt.
Proof.
  intros C U E I F. induction F as [|F IH]; intros cur cnt; [reflexivity|]. cbn [weekly_loop].
  rewrite (stop_check_ext a b), (excepted_ext a b), I by assumption.
  destruct (stop_check ed b cur cnt) as [[]| |]; try reflexivity.
  destruct (weekspan s cur); try reflexivity. destruct (r_interval b =? 0); [reflexivity|].
  destruct (date_add cur 1); try reflexivity. now rewrite IH.
Qed.

Lemma index_loop_ext a b ed wd index :
  r_count a = r_count b -> r_until a = r_until b -> r_exceptions a = r_exceptions b ->
  r_interval a = r_interval b ->
  forall F y m cnt, index_loop F a ed wd index y m cnt = index_loop F b ed wd index y m cnt.
Proof.
  intros C U E I F. induction F as [|F IH]; intros y m cnt; [reflexivity|]. cbn [index_loop].
  destruct (monthindex y m index wd); try reflexivity.
  rewrite (stop_check_ext a b), (excepted_ext a b), I by assumption.
  destruct (stop_check ed b _ cnt) as [[]| |]; try reflexivity. now rewrite IH.
Qed.

Lemma rule_eq_apply a b F dt ed : rule_eq a b = true -> apply F a dt ed = apply F b dt ed.
Proof.
  rewrite rule_eq_tuple. unfold tuple_for_comparison. intros X.
  injection X as K I C U E XX. unfold apply. rewrite <- K in *.
  destruct (r_kind a) eqn:KA; try reflexivity;
    destruct (match ed with None => Ok None | Some (VDate e) => Ok (Some e) | Some _ => Raise AssertionError end)
      as [o| |]; try reflexivity.
  1,2: apply basic_loop_ext; try assumption; intros d; unfold basic_next; now rewrite I.
  - apply basic_loop_ext; try assumption. intros d. unfold yearly_next. now rewrite I.
  - injection XX as ->. now apply weekly_loop_ext.
  - injection XX as ->. destruct (String.eqb (r_monthly b) "monthday").
    + apply basic_loop_ext; try assumption. intros d. unfold monthly_next. now rewrite I.
    + unfold apply_weekday, apply_lastweekday.
      destruct (String.eqb (r_monthly b) "weekday"); [now apply index_loop_ext|].
      destruct (String.eqb (r_monthly b) "lastweekday"); [now apply index_loop_ext|reflexivity].
Qed.

(** ** exceptions are never produced *)
Lemma basic_not_excepted next r ed : forall F cur cnt d,
  In d (fst (basic_loop F next r ed cur cnt)) -> is_exception r d = false.
Proof.
  induction F as [|F IH]; intros cur cnt d; [cbn; tauto|]. cbn [basic_loop].
  destruct (stop_check ed r cur cnt) as [[]| |]; try (cbn; tauto).
  rewrite excepted_is.
  assert (G : forall l, (In d l -> is_exception r d = false) ->
     In d ((if is_exception r cur then [] else [cur]) ++ l) -> is_exception r d = false).
  { intros l Hl X. apply in_app_or in X as [X|X]; [|auto].
    destruct (is_exception r cur) eqn:E; cbn in X; intuition congruence. }
  destruct (next cur) as [c|x|].
  - specialize (IH c (cnt + 1) d). destruct (basic_loop F next r ed c (cnt + 1)) as [l f]. cbn [fst] in *.
    now apply G.
  - cbn [fst]. intros X. apply (G []); [intros []|]. now rewrite app_nil_r.
  - cbn [fst]. intros X. apply (G []); [intros []|]. now rewrite app_nil_r.
Qed.

Lemma weekly_not_excepted r wds ed s : forall F cur cnt d,
  In d (fst (weekly_loop F r wds ed s cur cnt)) -> is_exception r d = false.
Proof.
  induction F as [|F IH]; intros cur cnt d; [cbn; tauto|]. cbn [weekly_loop].
  destruct (stop_check ed r cur cnt) as [[]| |]; try (cbn; tauto).
  rewrite excepted_is.
  destruct (weekspan s cur) as [ws| |]; try (cbn; tauto).
  destruct (r_interval r =? 0); [cbn; tauto|].
  set (h := _ && _).
  assert (G : forall l, (In d l -> is_exception r d = false) ->
     In d ((if h && negb (is_exception r cur) then [cur] else []) ++ l) -> is_exception r d = false).
  { intros l Hl X. apply in_app_or in X as [X|X]; [|auto].
    destruct (is_exception r cur) eqn:E; rewrite ?andb_false_r in X; [destruct X|].
    destruct (h && negb false); cbn in X; intuition congruence. }
  destruct (date_add cur 1) as [c|x|].
  - specialize (IH c (if h then cnt + 1 else cnt) d).
    destruct (weekly_loop F r wds ed s c _) as [l f]. cbn [fst] in *. now apply G.
  - cbn [fst]. intros X. apply (G []); [intros []|]. now rewrite app_nil_r.
  - cbn [fst]. intros X. apply (G []); [intros []|]. now rewrite app_nil_r.
Qed.

Lemma index_not_excepted r ed wd index : forall F y m cnt d,
  In d (fst (index_loop F r ed wd index y m cnt)) -> is_exception r d = false.
Proof.
  induction F as [|F IH]; intros y m cnt d; [cbn; tauto|]. cbn [index_loop].
  destruct (monthindex y m index wd) as [cur| |]; try (cbn; tauto).
  destruct (stop_check ed r cur cnt) as [[]| |]; try (cbn; tauto).
  rewrite excepted_is.
  match goal with |- context [index_loop F r ed wd index ?a ?b ?c] =>
    specialize (IH a b c d); destruct (index_loop F r ed wd index a b c) as [l f] end.
  cbn [fst] in *. intros X. apply in_app_or in X as [X|X]; [|auto].
  destruct (is_exception r cur) eqn:E; cbn in X; intuition congruence.
Qed.

Lemma apply_not_excepted F r dt ed d : r_kind r <> KNo ->
  In d (fst (apply F r dt (option_map VDate ed))) -> is_exception r d = false.
Proof.
  intros K. rewrite apply_unfold by assumption.
  destruct (r_kind r); try congruence; try apply basic_not_excepted; try apply weekly_not_excepted.
  destruct (String.eqb _ _); [apply basic_not_excepted|].
  destruct (String.eqb _ _); [apply index_not_excepted|].
  destruct (String.eqb _ _); [apply index_not_excepted|intros []].
Qed.

(** ** first repetition *)
Lemma stop_check_start r ed s : until_is_date r ->
  stop_check ed r s 0 = Ok (over (code_on r) r ed s s).
Proof. intros U. rewrite <- (rank_start (code_on r) s) at 1. now apply stop_check_over. Qed.

Lemma basic_first F next r ed s : until_is_date r -> over (code_on r) r ed s s = false ->
  is_exception r s = false -> hd_error (fst (basic_loop (S F) next r ed s 0)) = Some s.
Proof.
  intros U O X. cbn [basic_loop]. rewrite stop_check_start, O by assumption.
  rewrite excepted_is, X. destruct (next s); try reflexivity.
  destruct (basic_loop F next r ed a (0 + 1)); reflexivity.
Qed.

Lemma mi_last s : 1 <= s <= MAXORD -> mi s <= 12 * 9999 + 11.
Proof.
  intros H. pose proof (proj2 (year_le_iff s ltac:(lia)) ltac:(lia)).
  pose proof (month_range s ltac:(lia)). unfold mi, MAXYEAR in *. lia.
Qed.

Lemma apply_first F r dt ed :
  r_kind r <> KNo -> valid_rule r -> until_is_date r -> 1 <= dt_date dt <= MAXORD ->
  (r_kind r = KMonthly -> r_monthly r = "lastweekday"%string ->
     year_of (dt_date dt) < 9999 \/ month_of (dt_date dt) < 12) ->
  over (code_on r) r ed (dt_date dt) (dt_date dt) = false ->
  is_exception r (dt_date dt) = false ->
  hd_error (fst (apply (S F) r dt (option_map VDate ed))) = Some (dt_date dt).
Proof.
  intros K V U Hs HL O X. destruct (validate_inv r V) as (Hi & _ & HM & _).
  rewrite apply_unfold by assumption. set (s := dt_date dt) in *.
  destruct (r_kind r) eqn:KK; try congruence; try (now apply basic_first).
  - cbn [weekly_loop]. rewrite stop_check_start, O by assumption.
    rewrite weekspan_ok by lia. replace (r_interval r =? 0) with false by lia.
    rewrite Z.sub_diag, Z.mod_0_l by lia. unfold z_in. cbn [existsb]. rewrite (Z.eqb_refl (weekday s)).
    rewrite excepted_is, X. cbn [Z.eqb andb orb negb].
    destruct (date_add s 1); try reflexivity.
    destruct (weekly_loop F r _ ed s a _); reflexivity.
  - destruct (HM eq_refl) as [M|[M|M]]; rewrite M; cbn [String.eqb Ascii.eqb Bool.eqb].
    + now apply basic_first.
    + rewrite apply_weekday_eq by lia. cbn [index_loop].
      pose proof (mi_ge12 s ltac:(lia)) as M12. pose proof (mi_last s Hs).
      pose proof (nth_range s ltac:(lia)) as NR.
      pose proof (start_is_fw s ltac:(lia)) as SF.
      rewrite (monthindex_ok (mi s) (nth_weekday s + 1) (weekday s) 0 (nth_weekday s)).
      * rewrite Z.add_0_r, <- SF. rewrite stop_check_start, O by assumption.
        rewrite excepted_is, X. match goal with |- context [index_loop F ?a ?b ?c ?d ?e ?f ?g] =>
          destruct (index_loop F a b c d e f g) end. reflexivity.
      * apply index_args; lia.
      * lia.
      * apply weekday_range.
      * rewrite Z.add_0_r. lia.
      * rewrite Z.add_0_r, <- SF. lia.
    + rewrite apply_lastweekday_eq by lia. cbn [index_loop].
      pose proof (mi_ge12 s ltac:(lia)) as M12. pose proof (mi_last s Hs).
      pose proof (nth_last_range s ltac:(lia)) as NR.
      pose proof (start_is_fw_last s ltac:(lia)) as SF.
      rewrite (monthindex_ok (mi s) (- (nth_last_weekday s + 1)) (weekday s) 1 (- (nth_last_weekday s + 1))).
      * rewrite <- SF. rewrite stop_check_start, O by assumption.
        rewrite excepted_is, X. match goal with |- context [index_loop F ?a ?b ?c ?d ?e ?f ?g] =>
          destruct (index_loop F a b c d e f g) end. reflexivity.
      * apply last_args; lia.
      * lia.
      * apply weekday_range.
      * specialize (HL eq_refl M). pose proof (month_range s ltac:(lia)).
        pose proof (proj2 (year_le_iff s ltac:(lia)) ltac:(lia)).
        assert (mi s + 1 <= 12 * 9999 + 11) by (unfold mi, MAXYEAR in *; lia).
        pose proof (fw_bounds (mi s + 1) (weekday s) ltac:(lia) (weekday_range s)).
        pose proof (month_start_le (mi s + 1) (12 * 9999 + 11) ltac:(lia) ltac:(lia)).
        pose proof month_start_max. lia.
      * rewrite <- SF. lia.
Qed.

Lemma over_first_nil F r dt ed : r_kind r <> KNo -> valid_rule r -> until_is_date r -> 1 <= dt_date dt ->
  over (code_on r) r ed (dt_date dt) (dt_date dt) = true ->
  fst (apply F r dt (option_map VDate ed)) = [].
Proof.
  intros K V U Hs O. destruct F as [|F].
  { rewrite apply_unfold by assumption. destruct (r_kind r); try congruence; try reflexivity.
    destruct (String.eqb _ _); [reflexivity|]. unfold apply_weekday, apply_lastweekday.
    destruct (String.eqb _ _); [reflexivity|]. destruct (String.eqb _ _); reflexivity. }
  destruct (validate_inv r V) as (Hi & _ & HM & _).
  rewrite apply_unfold by assumption. set (s := dt_date dt) in *.
  assert (BF : forall next, fst (basic_loop (S F) next r ed s 0) = []).
  { intros next. cbn [basic_loop]. now rewrite stop_check_start, O. }
  destruct (r_kind r) eqn:KK; try congruence; try apply BF.
  - cbn [weekly_loop]. now rewrite stop_check_start, O.
  - destruct (HM eq_refl) as [M|[M|M]]; rewrite M; cbn [String.eqb Ascii.eqb Bool.eqb].
    + apply BF.
    + rewrite apply_weekday_eq by lia. cbn [index_loop].
      destruct (monthindex _ _ _ _) as [c| |] eqn:E; try reflexivity.
      apply (monthindex_inv (mi s) _ (weekday s) 0 (nth_weekday s)) in E;
        [|now apply index_args|apply weekday_range].
      destruct E as (-> & _). rewrite Z.add_0_r, <- start_is_fw by assumption.
      now rewrite stop_check_start, O.
    + rewrite apply_lastweekday_eq by lia. cbn [index_loop].
      destruct (monthindex _ _ _ _) as [c| |] eqn:E; try reflexivity.
      apply (monthindex_inv (mi s) _ (weekday s) 1 (- (nth_last_weekday s + 1))) in E;
        [|now apply last_args|apply weekday_range].
      destruct E as (-> & _). rewrite <- start_is_fw_last by assumption.
      now rewrite stop_check_start, O.
Qed.

(** ** an interval of zero makes the loops run forever *)
Lemma basic_zero next r e s : next s = Ok s -> r_count r = None -> r_until r = None -> s <= e ->
  forall F cnt, snd (basic_loop F next r (Some e) s cnt) = GMore.
Proof.
  intros N C U He F. induction F as [|F IH]; intros cnt; [reflexivity|]. cbn [basic_loop].
  unfold stop_check. rewrite C, U, N. replace (e <? s) with false by lia.
  specialize (IH (cnt + 1)). destruct (basic_loop F next r (Some e) s (cnt + 1)) as [l f]. exact IH.
Qed.

Lemma daily_zero_diverges r dt e F :
  r_kind r = KDaily -> r_interval r = 0 -> r_count r = None -> r_until r = None ->
  1 <= dt_date dt <= MAXORD -> dt_date dt <= e ->
  snd (apply F r dt (Some (VDate e))) = GMore.
Proof.
  intros K I C U Hs He. unfold apply. rewrite K. apply basic_zero; try assumption.
  unfold basic_next, date_add. rewrite I, Z.add_0_r.
  now replace ((1 <=? dt_date dt) && (dt_date dt <=? MAXORD)) with true by lia.
Qed.

(** ** week distance *)
Lemma week_no_monday d : week_no d = (d - 1) / 7.
Proof. unfold week_no, weekday. lia. Qed.

(** ** month index *)
Lemma monthindex_front y m n wd : 1 <= y <= MAXYEAR -> 1 <= m <= 12 -> 1 <= n <= 4 -> 0 <= wd <= 6 ->
  exists d, monthindex y m n wd = Ok d /\ 1 <= d <= MAXORD /\ year_of d = y /\ month_of d = m
    /\ weekday d = wd /\ nth_weekday d = n - 1.
Proof.
  intros Hy Hm Hn Hw. set (k := y * 12 + m - 1).
  assert (Ey : k / 12 = y) by (subst k; lia). assert (Em : k mod 12 + 1 = m) by (subst k; lia).
  assert (Hk : 12 <= k) by (subst k; lia).
  destruct (fw_props k wd Hk Hw) as (F1 & F2 & F3 & F4).
  destruct (fw_bounds k wd Hk Hw) as (F5 & F6).
  pose proof (month_start_add k (fw k wd - month_start k + 1 + 7 * (n - 1)) Hk) as MS. cbv zeta in MS.
  pose proof (dim_range (k / 12) (k mod 12 + 1)).
  destruct MS as (M1 & M2 & M3); [lia|].
  replace (month_start k + (fw k wd - month_start k + 1 + 7 * (n - 1)) - 1) with (fw k wd + 7 * (n - 1)) in * by lia.
  set (d := fw k wd + 7 * (n - 1)) in *.
  destruct (mi_div d ltac:(lia)) as [D1 D2]. rewrite M2, Ey in D1. rewrite M2, Em in D2.
  assert (d <= MAXORD) by (apply year_le_iff; lia).
  exists d. split; [|repeat split; try lia].
  - rewrite <- Ey at 1. rewrite <- Em at 1.
    rewrite (monthindex_ok k n wd 0 (n - 1)); rewrite ?Z.add_0_r; auto; try lia.
  - subst d. unfold weekday in *. lia.
  - unfold nth_weekday. rewrite M3. 
    pose proof (month_start_of (fw k wd) F1) as X. rewrite F2 in X. lia.
Qed.

Lemma monthindex_back y m n wd : 1 <= y <= MAXYEAR -> 1 <= m <= 12 -> ~ (y = 9999 /\ m = 12) ->
  1 <= n <= 4 -> 0 <= wd <= 6 ->
  exists d, monthindex y m (- n) wd = Ok d /\ 1 <= d <= MAXORD /\ year_of d = y /\ month_of d = m
    /\ weekday d = wd /\ nth_last_weekday d = n - 1.
Proof.
  intros Hy Hm HL Hn Hw. set (k := y * 12 + m - 1).
  assert (Ey : k / 12 = y) by (subst k; lia). assert (Em : k mod 12 + 1 = m) by (subst k; lia).
  assert (Hk : 12 <= k) by (subst k; lia).
  assert (Hk2 : k + 1 <= 12 * 9999 + 11) by (unfold MAXYEAR in *; subst k; lia).
  destruct (fw_props (k + 1) wd ltac:(lia) Hw) as (F1 & F2 & F3 & F4).
  destruct (fw_bounds (k + 1) wd ltac:(lia) Hw) as (F5 & F6).
  pose proof (month_start_next k) as MN.
  pose proof (dim_range (k / 12) (k mod 12 + 1)) as DR.
  pose proof (month_start_add k (fw (k + 1) wd - month_start k + 1 - 7 * n) Hk) as MS. cbv zeta in MS.
  destruct MS as (M1 & M2 & M3); [lia|].
  replace (month_start k + (fw (k + 1) wd - month_start k + 1 - 7 * n) - 1) with (fw (k + 1) wd + 7 * (- n)) in * by lia.
  set (d := fw (k + 1) wd + 7 * (- n)) in *.
  destruct (mi_div d ltac:(lia)) as [D1 D2]. rewrite M2, Ey in D1. rewrite M2, Em in D2.
  assert (d <= MAXORD) by (apply year_le_iff; lia).
  exists d. split; [|repeat split; try lia].
  - rewrite <- Ey at 1. rewrite <- Em at 1.
    rewrite (monthindex_ok k (- n) wd 1 (- n)); auto; try lia.
    pose proof (month_start_le (k + 1) (12 * 9999 + 11) ltac:(lia) ltac:(lia)).
    pose proof month_start_max. lia.
  - subst d. unfold weekday in *. lia.
  - unfold nth_last_weekday. rewrite M3, <- D1, <- D2, Ey, Em in *. lia.
Qed.

Lemma same_month a b : 1 <= a -> 1 <= b -> year_of a = year_of b -> month_of a = month_of b -> 
  mi a = mi b.
Proof. unfold mi. lia. Qed.

Lemma nth_unique a b : 1 <= a -> 1 <= b -> year_of a = year_of b -> month_of a = month_of b ->
  weekday a = weekday b -> nth_weekday a = nth_weekday b -> a = b.
Proof.
  intros A B Y M W N. pose proof (ord_diff_day a b A B (same_month a b A B Y M)).
  unfold nth_weekday, weekday in *. lia.
Qed.

Lemma nth_last_unique a b : 1 <= a -> 1 <= b -> year_of a = year_of b -> month_of a = month_of b ->
  weekday a = weekday b -> nth_last_weekday a = nth_last_weekday b -> a = b.
Proof.
  intros A B Y M W N. pose proof (ord_diff_day a b A B (same_month a b A B Y M)).
  unfold nth_last_weekday, weekday in *. rewrite Y, M in N. lia.
Qed.

(** ** one sufficient condition for every kind of rule *)
Definition room (r : rule) (s e : Z) : Prop :=
  year_of e + 16 * r_interval r < MAXYEAR
  /\ year_of s < MAXYEAR
  /\ ~ (r_kind r = KYearly /\ month_of s = 2 /\ day_of s = 29).

Lemma year_add_days e n : 1 <= e -> 1 <= n -> year_of e + n < MAXYEAR -> e + n <= MAXORD.
Proof.
  intros He Hn H. apply year_le_iff; [lia|].
  assert (G : forall j : nat, year_of (e + Z.of_nat j) <= year_of e + Z.of_nat j).
  { induction j as [|j IH]; [rewrite Z.add_0_r; lia|].
    replace (e + Z.of_nat (S j)) with (e + Z.of_nat j + 1) by lia.
    set (x := e + Z.of_nat j) in *.
    pose proof (ord2ymd_succ x ltac:(subst x; lia)) as S1.
    rewrite !ord2ymd_eta in S1. unfold next_day in S1.
    destruct (_ <? _); [|destruct (_ <? _)]; injection S1 as S1 _ _; lia. }
  specialize (G (Z.to_nat n)). rewrite Z2Nat.id in G by lia. lia.
Qed.

Lemma apply_total r dt e : r_kind r <> KNo -> valid_rule r -> until_is_date r ->
  1 <= dt_date dt <= MAXORD -> 1 <= e -> room r (dt_date dt) e ->
  yields r dt (Some e) (expected (code_on r) r (dt_date dt) e).
Proof.
  intros K V U Hs He (R1 & R2 & R3). destruct (validate_inv r V) as (Hi & _ & HM & _).
  set (s := dt_date dt) in *. unfold MAXYEAR in *.
  pose proof (month_range e He) as Me. pose proof (month_range s ltac:(lia)) as Ms.
  assert (EXT : forall on', (forall x, s <= x -> code_on r s x = on' s x) ->
     yields r dt (Some e) (expected on' r s e) -> yields r dt (Some e) (expected (code_on r) r s e)).
  { intros on' H Y. rewrite (expected_ext _ on') by exact H. exact Y. }
  destruct (r_kind r) eqn:KK; try congruence.
  - apply (EXT (on_day r)); [intros; unfold code_on; now rewrite KK|].
    apply daily_enddate; auto. apply year_add_days; unfold MAXYEAR; lia.
  - apply (EXT (on_day r)); [intros; unfold code_on; now rewrite KK|].
    apply daily_enddate; auto. apply year_add_days; unfold MAXYEAR; lia.
  - apply (EXT (on_day r)); [intros; unfold code_on; now rewrite KK|].
    apply yearly_enddate; auto; unfold MAXYEAR; lia.
  - apply (EXT (on_day r)); [intros; unfold code_on; now rewrite KK|].
    apply weekly_enddate; auto. pose proof (year_add_days e 1 He ltac:(lia)). unfold MAXYEAR in *. lia.
  - destruct (HM eq_refl) as [M|[M|M]].
    + apply (EXT (on_day r)); [intros; unfold code_on; now rewrite KK, M|].
      apply monthday_enddate; auto. unfold monthday_reach, MAXYEAR.
      destruct (_ && _); lia.
    + apply (EXT (on_day_spill r)); [intros; unfold code_on; now rewrite KK, M|].
      apply weekday_spill_enddate; auto. unfold mi. lia.
    + apply (EXT (on_day_spill r)); [intros; unfold code_on; now rewrite KK, M|].
      apply last_spill_enddate; auto; fold s; try lia; unfold mi; lia.
Qed.
