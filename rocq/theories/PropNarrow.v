(** Asking about a part of a period (C142). *)
From Verif Require Import Base PyDate DateFacts SpecRecur RecurProofs RecurOrder Recurrent UtilProofs CalTime TimeProofs Event Storage
  QueryProofs BlockProofs PropQuery.
From Coq Require Import ZifyBool.
Ltac Zify.zify_post_hook ::= Z.div_mod_to_equations.
Local Opaque ord2ymd year_of month_of day_of ymd2ord days_in_month is_leap.

(** the occurrence is, in part at least, between [a] and [b] *)
Definition within (a b : Z) (o : occurrence event) : bool :=
  match o_duration o with Some d => (a <? o_dtstart o + d) && (o_dtstart o <? b) | None => false end.
Definition event_within (a b : Z) (e : event) : bool :=
  match e_duration e with Some d => (a <? e_dtstart e + d) && (e_dtstart e <? b) | None => false end.

(** ** Rules stop earlier when told to *)
Lemma stop_sooner e e' r cur k : e' <= e ->
  stop_check (Some e') r cur k = Ok true \/ stop_check (Some e') r cur k = stop_check (Some e) r cur k.
Proof.
  intros L. unfold stop_check. destruct (e' <? cur) eqn:A; [now left|]. right.
  replace (e <? cur) with false by lia. reflexivity.
Qed.

Lemma basic_sooner next r e e' : e' <= e -> forall F cur k l, basic_loop F next r (Some e) cur k = (l, GStop) ->
  exists l', basic_loop F next r (Some e') cur k = (l', GStop) /\ incl l' l.
Proof.
  intros L. induction F as [|F IH]; intros cur k l E; [discriminate|]. cbn [basic_loop] in *.
  destruct (stop_sooner e e' r cur k L) as [-> | ->]; [exists []; split; [reflexivity|intros ? []]|].
  destruct (stop_check (Some e) r cur k) as [[]| |]; try discriminate; [exists []; split; [reflexivity|intros ? []]|].
  destruct (next cur) as [c| |]; try discriminate.
  destruct (basic_loop F next r (Some e) c (k + 1)) as [l1 f1] eqn:B. injection E as <- ->.
  destruct (IH _ _ _ B) as (l' & -> & I). eexists. split; [reflexivity|]. now apply incl_app_app; [apply incl_refl|].
Qed.

Lemma weekly_sooner r wds e e' s : e' <= e -> forall F cur k l, weekly_loop F r wds (Some e) s cur k = (l, GStop) ->
  exists l', weekly_loop F r wds (Some e') s cur k = (l', GStop) /\ incl l' l.
Proof.
  intros L. induction F as [|F IH]; intros cur k l E; [discriminate|]. cbn [weekly_loop] in *.
  destruct (stop_sooner e e' r cur k L) as [-> | ->]; [exists []; split; [reflexivity|intros ? []]|].
  destruct (stop_check (Some e) r cur k) as [[]| |]; try discriminate; [exists []; split; [reflexivity|intros ? []]|].
  destruct (weekspan s cur) as [ws| |]; try discriminate. destruct (r_interval r =? 0); [discriminate|].
  destruct (date_add cur 1) as [c| |]; try discriminate.
  match type of E with (let (_, _) := weekly_loop F r wds (Some e) s c ?k' in _) = _ =>
    destruct (weekly_loop F r wds (Some e) s c k') as [l1 f1] eqn:B end. injection E as <- ->.
  destruct (IH _ _ _ B) as (l' & -> & I). eexists. split; [reflexivity|]. now apply incl_app_app; [apply incl_refl|].
Qed.

Lemma index_sooner r e e' wd ix : e' <= e -> forall F y m k l, index_loop F r (Some e) wd ix y m k = (l, GStop) ->
  exists l', index_loop F r (Some e') wd ix y m k = (l', GStop) /\ incl l' l.
Proof.
  intros L. induction F as [|F IH]; intros y m k l E; [discriminate|]. cbn [index_loop] in *.
  destruct (monthindex y m ix wd) as [cur| |]; try discriminate.
  destruct (stop_sooner e e' r cur k L) as [-> | ->]; [exists []; split; [reflexivity|intros ? []]|].
  destruct (stop_check (Some e) r cur k) as [[]| |]; try discriminate; [exists []; split; [reflexivity|intros ? []]|].
  match type of E with (let (_, _) := index_loop F r (Some e) wd ix ?y' ?m' ?k' in _) = _ =>
    destruct (index_loop F r (Some e) wd ix y' m' k') as [l1 f1] eqn:B end. injection E as <- ->.
  destruct (IH _ _ _ _ B) as (l' & -> & I). eexists. split; [reflexivity|]. now apply incl_app_app; [apply incl_refl|].
Qed.

Lemma apply_sooner F r dt e e' l : e' <= e -> apply F r dt (Some (VDate e)) = (l, GStop) ->
  exists l', apply F r dt (Some (VDate e')) = (l', GStop) /\ incl l' l.
Proof.
  intros L. unfold apply. destruct (r_kind r); try (now apply basic_sooner); try (now apply weekly_sooner).
  - intros X. exists l. split; [exact X|apply incl_refl].
  - destruct (String.eqb _ _); [now apply basic_sooner|]. destruct (String.eqb _ _); [now apply index_sooner|].
    destruct (String.eqb _ _); [now apply index_sooner|]. intros X. exists l. split; [exact X|apply incl_refl].
Qed.

(** ** One event *)
Lemma in_period_any t d a b a' b' x : in_period t d (Some a, Some b) = Ok x ->
  exists n, d = Some n /\ dt_ok (t + n) = true /\ in_period t d (Some a', Some b') = Ok ((a' <? t + n) && (t <? b')).
Proof.
  destruct d as [n|]; [|discriminate]. unfold in_period, end_of, dt_add. destruct (dt_ok (t + n)) eqn:O; [|discriminate].
  intros _. exists n. split; [reflexivity|]. split; [exact O|]. cbn [rbind].
  destruct (t + n <=? a') eqn:A; [replace (a' <? t + n) with false by lia; reflexivity|].
  replace (a' <? t + n) with true by lia. cbn [andb]. f_equal. lia.
Qed.

Lemma expand_dates_any e a b a' b' : forall l out, expand_dates e (Some a, Some b) l = Ok out ->
  forall l', incl l' l -> exists out', expand_dates e (Some a', Some b') l' = Ok out'.
Proof.
  intros l out E l' I. unfold expand_dates in *. apply rconcat_ok. intros d Hd.
  destruct (rconcat_all _ _ _ E d (I d Hd)) as [ys Y]. cbn beta in Y.
  destruct (in_period _ _ (Some a, Some b)) as [x| |] eqn:P; try discriminate.
  destruct (in_period_any _ _ _ _ a' b' _ P) as (n & _ & _ & ->). cbn [rbind]. eauto.
Qed.

Lemma expand_answered F e a b a' b' l : b' <= b -> expand F e (Some a, Some b) = Ok l ->
  exists l', expand F e (Some a', Some b') = Ok l'.
Proof.
  intros B. unfold expand. destruct (e_recurrence e) as [r|].
  - cbn [snd]. destruct (apply F r (e_dtstart e) (Some (VDate (dt_date b)))) as [ds f] eqn:A.
    destruct (expand_dates e (Some a, Some b) ds) as [out| |] eqn:X; try discriminate. cbn [rbind].
    destruct f; try discriminate. intros _.
    assert (BD : dt_date b' <= dt_date b) by (unfold dt_date, DAY; lia).
    destruct (apply_sooner _ _ _ _ _ _ BD A) as (ds' & -> & I).
    destruct (expand_dates_any _ _ _ a' b' _ _ X _ I) as [out' ->]. cbn [rbind]. eauto.
  - destruct (in_period _ _ (Some a, Some b)) as [x| |] eqn:P; try discriminate.
    destruct (in_period_any _ _ _ _ a' b' _ P) as (n & _ & _ & ->). cbn [rbind]. eauto.
Qed.

(** the narrower expansion of an event whose rule is one a constructor accepts *)
Lemma expand_dates_filter e a b a' b' : a <= a' -> b' <= b -> forall l out, expand_dates e (Some a, Some b) l = Ok out ->
  expand_dates e (Some a', Some b') (filter (fun d => d <=? dt_date b') l) = Ok (filter (within a' b') out).
Proof.
  intros HA HB. induction l as [|d l IH]; intros out E; unfold expand_dates in *; cbn [rconcat_map] in E.
  - injection E as <-. reflexivity.
  - destruct (in_period (combine d (dt_time (e_dtstart e))) (e_duration e) (Some a, Some b)) as [x| |] eqn:P; try discriminate.
    cbn [rbind] in E. destruct (rconcat_map _ l) as [r| |] eqn:R; try discriminate. cbn [rbind] in E. injection E as <-.
    specialize (IH r eq_refl). rewrite filter_app. cbn [filter].
    destruct (in_period_any _ _ _ _ a' b' _ P) as (n & D & O & Q). destruct (in_period_any _ _ _ _ a b _ P) as (n2 & D2 & _ & Q2).
    assert (n2 = n) by congruence. subst n2. rewrite Q2 in P. injection P as <-.
    assert (W : within a' b' (mkOcc (combine d (dt_time (e_dtstart e))) (e_duration e) e)
                = (a' <? combine d (dt_time (e_dtstart e)) + n) && (combine d (dt_time (e_dtstart e)) <? b')).
    { unfold within. cbn [o_duration o_dtstart]. now rewrite D. }
    destruct (d <=? dt_date b') eqn:DB.
    + cbn [rconcat_map]. rewrite Q. cbn [rbind]. rewrite IH. cbn [rbind]. f_equal. f_equal.
      destruct ((a <? _) && _) eqn:X1; destruct ((a' <? _) && _) eqn:X2; cbn [filter]; rewrite ?W, ?X2; try reflexivity. lia.
    + rewrite IH. f_equal. destruct ((a <? _) && _) eqn:X1; cbn [filter]; rewrite ?W; [|reflexivity].
      replace (combine d (dt_time (e_dtstart e)) <? b') with false; [now rewrite andb_false_r|].
      unfold combine, dt_date, dt_time, DAY in *. lia.
Qed.

Lemma expand_dates_all e a b a' b' : a <= a' -> b' <= b -> forall l out, expand_dates e (Some a, Some b) l = Ok out ->
  expand_dates e (Some a', Some b') l = Ok (filter (within a' b') out).
Proof.
  intros HA HB. induction l as [|d l IH]; intros out E; unfold expand_dates in *; cbn [rconcat_map] in *.
  - injection E as <-. reflexivity.
  - destruct (in_period (combine d (dt_time (e_dtstart e))) (e_duration e) (Some a, Some b)) as [x| |] eqn:P; try discriminate.
    cbn [rbind] in E. destruct (rconcat_map _ l) as [r| |] eqn:R; try discriminate. cbn [rbind] in E. injection E as <-.
    specialize (IH r eq_refl). rewrite filter_app.
    destruct (in_period_any _ _ _ _ a' b' _ P) as (n & D & O & Q). destruct (in_period_any _ _ _ _ a b _ P) as (n2 & D2 & _ & Q2).
    assert (n2 = n) by congruence. subst n2. rewrite Q2 in P. injection P as <-.
    assert (W : within a' b' (mkOcc (combine d (dt_time (e_dtstart e))) (e_duration e) e)
                = (a' <? combine d (dt_time (e_dtstart e)) + n) && (combine d (dt_time (e_dtstart e)) <? b')).
    { unfold within. cbn [o_duration o_dtstart]. now rewrite D. }
    rewrite Q. cbn [rbind]. rewrite IH. cbn [rbind]. f_equal. f_equal.
    destruct ((a <? _) && _) eqn:X1; destruct ((a' <? _) && _) eqn:X2; cbn [filter]; rewrite ?W, ?X2; try reflexivity. lia.
Qed.

Lemma filter_both {A} (f g : A -> bool) l : (forall x, g x = true -> f x = true) -> filter g l = filter g (filter f l).
Proof.
  intros H. induction l as [|x l IH]; [reflexivity|]. cbn [filter]. destruct (g x) eqn:G.
  - rewrite (H x G). cbn [filter]. rewrite G. now f_equal.
  - destruct (f x); cbn [filter]; rewrite ?G; exact IH.
Qed.

(** a rule that goes forward *)
Definition forward_rule (e : event) : Prop :=
  dt_ok (e_dtstart e) = true /\ forall r, e_recurrence e = Some r -> 1 <= r_interval r.

Lemma expand_narrow F e a b a' b' l : forward_rule e -> a <= a' -> b' <= b -> expand F e (Some a, Some b) = Ok l ->
  expand F e (Some a', Some b') = Ok (filter (within a' b') l).
Proof.
  intros [OK FW] HA HB E. destruct (expand_answered F e a b a' b' l HB E) as [l' E']. rewrite E'. f_equal.
  unfold expand in *. destruct (e_recurrence e) as [r|].
  - cbn [snd] in *. destruct (apply F r (e_dtstart e) (Some (VDate (dt_date b)))) as [ds f] eqn:A.
    destruct (expand_dates e (Some a, Some b) ds) as [out| |] eqn:X; try discriminate. cbn [rbind] in E.
    destruct f; try discriminate. injection E as ->.
    destruct (apply F r (e_dtstart e) (Some (VDate (dt_date b')))) as [ds' f'] eqn:A'.
    destruct (expand_dates e (Some a', Some b') ds') as [out'| |] eqn:X'; try discriminate. cbn [rbind] in E'.
    destruct f'; try discriminate. injection E' as ->.
    assert (KD : r_kind r = KNo \/ r_kind r <> KNo) by (destruct (r_kind r); auto; right; discriminate).
    destruct KD as [K|KN].
    + unfold apply in A, A'. rewrite K in A, A'. injection A as <-. injection A' as <-.
      pose proof (expand_dates_all e a b a' b' HA HB _ _ X) as Y. congruence.
    + apply dt_ok_date in OK.
      pose proof (apply_trunc F r (e_dtstart e) (dt_date b) KN (FW r eq_refl) ltac:(lia)) as T.
      pose proof (apply_trunc F r (e_dtstart e) (dt_date b') KN (FW r eq_refl) ltac:(lia)) as T'.
      rewrite A in T. rewrite A' in T'. cbn [fst] in T, T'.
      rewrite (filter_both (bounded_ed (dt_date b))) in T' by (intros x; unfold bounded_ed, dt_date, DAY; lia).
      rewrite <- T in T'. subst ds'.
      pose proof (expand_dates_filter e a b a' b' HA HB _ _ X) as Y. unfold bounded_ed in X'. congruence.
  - destruct (in_period _ _ (Some a, Some b)) as [x| |] eqn:P; try discriminate. cbn [rbind] in E. injection E as <-.
    destruct (in_period_any _ _ _ _ a' b' _ P) as (n & D & O & Q). destruct (in_period_any _ _ _ _ a b _ P) as (n2 & D2 & _ & Q2).
    assert (n2 = n) by congruence. subst n2. rewrite Q2 in P. injection P as <-. rewrite Q in E'. cbn [rbind] in E'. injection E' as <-.
    assert (W : within a' b' (mkOcc (e_dtstart e) (e_duration e) e) = (a' <? e_dtstart e + n) && (e_dtstart e <? b')).
    { unfold within. cbn [o_duration o_dtstart]. now rewrite D. }
    destruct ((a <? _) && _) eqn:X1; destruct ((a' <? _) && _) eqn:X2; cbn [filter]; rewrite ?W, ?X2; try reflexivity. lia.
Qed.

(** ** Stores *)
(** A question for a period that ends no later is answered, whatever the rules. *)
Theorem C142_answered F evs c a b l a' b' : get_occurrences F evs (Some a, Some b) c = Ok l -> b' <= b ->
  exists l', get_occurrences F evs (Some a', Some b') c = Ok l'.
Proof.
  intros E B. unfold get_occurrences in *. cbn [assert_bounded rbind] in *.
  destruct (matching_events evs c) as [m| |]; try discriminate. cbn [rbind] in *.
  apply rconcat_ok. intros e He. destruct (rconcat_all _ _ _ E e He) as [ys Y]. cbn beta in Y. exact (expand_answered _ _ _ _ _ _ _ B Y).
Qed.
Print Assumptions C142_answered.

(** The answer for a part is the part of the answer, in the same order. *)
Theorem C142_occurrences F evs c a b l a' b' : (forall e, In e evs -> forward_rule e) -> a <= a' -> b' <= b ->
  get_occurrences F evs (Some a, Some b) c = Ok l ->
  get_occurrences F evs (Some a', Some b') c = Ok (filter (within a' b') l).
Proof.
  intros H HA HB E. unfold get_occurrences in *. cbn [assert_bounded rbind] in *.
  destruct (matching_events evs c) as [m| |] eqn:M; try discriminate. cbn [rbind] in *.
  assert (IM : forall e, In e m -> In e evs) by (intros e He; exact (proj1 (proj1 (rfilter_in _ _ _ M e) He))). clear M.
  revert l E. induction m as [|e m IH]; intros l E; cbn [rconcat_map] in *; [injection E as <-; reflexivity|].
  destruct (expand F e (Some a, Some b)) as [l1| |] eqn:X; try discriminate. cbn [rbind] in E.
  destruct (rconcat_map _ m) as [l2| |] eqn:R; try discriminate. cbn [rbind] in E. injection E as <-.
  rewrite (expand_narrow _ _ _ _ _ _ _ (H e (IM e (or_introl eq_refl))) HA HB X). cbn [rbind].
  rewrite (IH (fun x Hx => IM x (or_intror Hx)) l2 eq_refl). cbn [rbind]. now rewrite filter_app.
Qed.
Print Assumptions C142_occurrences.

(** the same for events *)
Theorem C142_events evs c a b l a' b' : a <= a' -> b' <= b -> get_events evs (Some a, Some b) c = Ok l ->
  get_events evs (Some a', Some b') c = Ok (filter (event_within a' b') l).
Proof.
  intros HA HB E. unfold get_events in *. destruct (matching_events evs c) as [m| |]; try discriminate. cbn [rbind] in *.
  revert l E. induction m as [|e m IH]; intros l E; cbn [rfilter] in *; [injection E as <-; reflexivity|].
  destruct (in_period (e_dtstart e) (e_duration e) (Some a, Some b)) as [x| |] eqn:P; try discriminate. cbn [rbind] in E.
  destruct (rfilter _ m) as [l2| |]; try discriminate. cbn [rbind] in E. injection E as <-.
  destruct (in_period_any _ _ _ _ a' b' _ P) as (n & D & O & Q). destruct (in_period_any _ _ _ _ a b _ P) as (n2 & D2 & _ & Q2).
  assert (n2 = n) by congruence. subst n2. rewrite Q2 in P. injection P as <-. rewrite Q. cbn [rbind].
  rewrite (IH l2 eq_refl). cbn [rbind]. f_equal.
  assert (W : event_within a' b' e = (a' <? e_dtstart e + n) && (e_dtstart e <? b')) by (unfold event_within; now rewrite D).
  destruct ((a <? _) && _) eqn:X1; destruct ((a' <? _) && _) eqn:X2; cbn [filter]; rewrite ?W, ?X2; try reflexivity. lia.
Qed.
Print Assumptions C142_events.

(** ** Segments and blocked periods *)
Lemma segment_one_gives {A} start end_ (occ : occurrence A) d :
  dt_ok start = true -> dt_ok end_ = true ->
  o_duration occ = Some d -> dt_ok (o_dtstart occ + d) = true ->
  Z.max (o_dtstart occ) start < MAXORD * DAY -> Z.min (o_dtstart occ + d) end_ < MAXORD * DAY ->
  exists out, segment_one start end_ occ = Ok out.
Proof.
  intros OS OE D OY L1 L2. unfold segment_one. set (s := o_dtstart occ) in *. rewrite D.
  unfold end_of, dt_add. rewrite OY. cbn [rbind]. set (y := s + d) in *.
  set (x := if s <? start then start else s) in *.
  assert (X : x = Z.max s start) by (subst x; destruct (s <? start) eqn:?; lia).
  destruct (day_borders_total (border_fuel x end_) x y end_) as [l B].
  - apply border_fuel_ok.
  - apply border_fuel_ok.
  - unfold dt_ok in *. lia.
  - unfold dt_date, DAY, MAXORD in *. lia.
  - rewrite B. cbn [rbind]. apply day_borders_eq in B as [-> FB].
    set (l := midnights (dt_date x + 1) (dt_date (Z.min y end_))) in *.
    assert (BO : (if s <? start then start :: l
                  else match l with [] => s :: l | b0 :: _ => if s =? b0 then l else s :: l end) = x :: l).
    { subst x. destruct (s <? start) eqn:L; [reflexivity|].
      destruct l as [|b0 r] eqn:EL; [reflexivity|]. apply midnights_head in EL.
      replace (s =? b0) with false; [reflexivity|]. symmetry. apply Z.eqb_neq. unfold dt_date, DAY in *. lia. }
    rewrite BO.
    assert (OL : dt_ok (if end_ <? y then end_ else y) = true) by (destruct (end_ <? y); assumption).
    rewrite emit_eq by assumption. now eexists.
Qed.

Lemma borders_last F : forall x y e l, day_borders F x y e = Ok l -> Z.min y e < MAXORD * DAY.
Proof.
  induction F as [|F IH]; intros x y e l E; [discriminate|]. cbn [day_borders] in E. rewrite next_midnight_eq in E.
  destruct (dt_ok ((dt_date x + 1) * DAY)) eqn:O; [|discriminate]. cbn [rbind] in E.
  destruct ((e <? _) || (y <? _)) eqn:B; [|destruct (day_borders F _ y e) eqn:R; try discriminate; eauto].
  unfold dt_ok, DAY, MAXORD in *. lia.
Qed.

Lemma borders_first F x y e l : day_borders F x y e = Ok l -> x < MAXORD * DAY.
Proof.
  destruct F as [|F]; [discriminate|]. cbn [day_borders]. rewrite next_midnight_eq.
  destruct (dt_ok ((dt_date x + 1) * DAY)) eqn:O; [|discriminate]. intros _. unfold dt_ok, dt_date, DAY, MAXORD in *. lia.
Qed.

Lemma segment_last {A} a b (o : occurrence A) out d : segment_one a b o = Ok out -> o_duration o = Some d -> Z.min (o_dtstart o + d) b < MAXORD * DAY /\ o_dtstart o < MAXORD * DAY.
Proof.
  intros E D. unfold segment_one in E. rewrite D in E. unfold end_of, dt_add in E. destruct (dt_ok _); [|discriminate]. cbn [rbind] in E.
  destruct (day_borders _ _ _ _) as [l| |] eqn:B; try discriminate. split; [now apply borders_last in B|]. apply borders_first in B. destruct (o_dtstart o <? a) eqn:?; lia.
Qed.

Lemma expand_within F e a b l : expand F e (Some a, Some b) = Ok l ->
  forall o, In o l -> exists d, o_duration o = Some d /\ dt_ok (o_dtstart o + d) = true /\ a < o_dtstart o + d /\ o_dtstart o < b.
Proof.
  intros E o Ho. assert (K : in_period (o_dtstart o) (o_duration o) (Some a, Some b) = Ok true).
  { unfold expand in E. destruct (e_recurrence e) as [r|].
    - cbn [snd] in E. destruct (apply _ _ _ _) as [ds f]. destruct (expand_dates _ _ ds) as [out| |] eqn:X; try discriminate. cbn [rbind] in E.
      destruct f; try discriminate. injection E as ->. apply (expand_dates_in _ _ _ _ X) in Ho as (d & _ & P & ->). exact P.
    - destruct (in_period _ _ _) as [x| |] eqn:P; try discriminate. cbn [rbind] in E. injection E as <-.
      destruct x; [|destruct Ho]. destruct Ho as [<-|[]]. exact P. }
  apply in_period_ok_true in K as (d & D & O & P). exists d. tauto.
Qed.

(** an occurrence of the part is an occurrence of the whole *)
Lemma expand_incl F e a b a' b' l l' : a <= a' -> b' <= b -> expand F e (Some a, Some b) = Ok l -> expand F e (Some a', Some b') = Ok l' -> incl l' l.
Proof.
  intros HA HB E E' o Ho. destruct (expand_within _ _ _ _ _ E' o Ho) as (d & D & O & P1 & P2).
  unfold expand in *. destruct (e_recurrence e) as [r|].
  - cbn [snd] in *. destruct (apply F r _ (Some (VDate (dt_date b)))) as [ds f] eqn:A.
    destruct (expand_dates e (Some a, Some b) ds) as [out| |] eqn:X; try discriminate. cbn [rbind] in E.
    destruct f; try discriminate. injection E as ->. assert (BD : dt_date b' <= dt_date b) by (unfold dt_date, DAY; lia).
    destruct (apply_sooner _ _ _ _ _ _ BD A) as (ds' & Q & I). rewrite Q in E'.
    destruct (expand_dates e (Some a', Some b') ds') as [out| |] eqn:X'; try discriminate. cbn [rbind] in E'. injection E' as ->.
    apply (expand_dates_in _ _ _ _ X') in Ho as (x & Hx & P & EQ). subst o. cbn [o_dtstart o_duration] in *.
    apply (expand_dates_in _ _ _ _ X). exists x. split; [now apply I|]. split; [|reflexivity].
    destruct (in_period_any _ _ _ _ a b _ P) as (n & D' & _ & Y). rewrite Y. f_equal. assert (n = d) by congruence. lia.
  - destruct (in_period _ _ (Some a', _)) as [x| |] eqn:P; try discriminate. cbn [rbind] in E'. injection E' as <-.
    destruct x; [|destruct Ho]. destruct Ho as [<-|[]].
    cbn [o_dtstart o_duration] in *. destruct (in_period_any _ _ _ _ a b _ P) as (n & D' & _ & Y). rewrite Y in E. cbn [rbind] in E.
    assert (n = d) by congruence. replace ((a <? _) && _) with true in E by lia. injection E as <-. now left.
Qed.

Lemma occurrences_incl F evs c a b a' b' l l' : a <= a' -> b' <= b ->
  get_occurrences F evs (Some a, Some b) c = Ok l -> get_occurrences F evs (Some a', Some b') c = Ok l' -> incl l' l.
Proof.
  intros HA HB E E' o Ho. unfold get_occurrences in *. cbn [assert_bounded rbind] in *.
  destruct (matching_events evs c) as [m| |]; try discriminate. cbn [rbind] in *.
  apply (rconcat_in _ _ _ E') in Ho as (e & ys & He & Y & Hy). destruct (rconcat_all _ _ _ E e He) as [zs Z]. cbn beta in Y, Z.
  apply (rconcat_in _ _ _ E). exists e, zs. split; [exact He|]. split; [exact Z|]. exact (expand_incl _ _ _ _ _ _ _ _ HA HB Z Y o Hy).
Qed.

Lemma occurrences_within F evs c a b l : get_occurrences F evs (Some a, Some b) c = Ok l ->
  forall o, In o l -> exists d, o_duration o = Some d /\ dt_ok (o_dtstart o + d) = true /\ a < o_dtstart o + d /\ o_dtstart o < b.
Proof.
  intros E o Ho. unfold get_occurrences in *. cbn [assert_bounded rbind] in *.
  destruct (matching_events evs c) as [m| |]; try discriminate. cbn [rbind] in *.
  apply (rconcat_in _ _ _ E) in Ho as (e & ys & He & Y & Hy). exact (expand_within _ _ _ _ _ Y o Hy).
Qed.

(** the list of a part of the period, cut at midnights, is there too *)
Theorem C142_segmented F evs c a b l a' b' : dt_ok a' = true -> dt_ok b' = true -> a <= a' < b' -> b' <= b ->
  get_occurrences_segmented F evs (Some a, Some b) c = Ok l ->
  exists l', get_occurrences_segmented F evs (Some a', Some b') c = Ok l'.
Proof.
  intros OA OB HA HB E. unfold get_occurrences_segmented in *.
  destruct (get_occurrences F evs (Some a, Some b) c) as [w| |] eqn:W; try discriminate. cbn [rbind assert_bounded] in *.
  destruct (C142_answered F evs c a b w a' b' W HB) as [w' W']. rewrite W'. cbn [rbind].
  pose proof (occurrences_incl F evs c a b a' b' w w' ltac:(lia) HB W W') as I. pose proof (occurrences_within _ _ _ _ _ _ W') as IN.
  unfold segment_occurrences in *. cbn [fst snd] in *. apply rconcat_ok. intros o Ho.
  destruct (rconcat_all _ _ _ E o (I o Ho)) as [ys Y]. destruct (IN o Ho) as (d & D & O & P1 & P2).
  destruct (segment_last _ _ _ _ _ Y D) as [LA LF]. apply (segment_one_gives a' b' o d OA OB D O).
  2:{ lia. }
  unfold dt_ok, DAY, MAXORD in *. lia.
Qed.
Print Assumptions C142_segmented.

Lemma emit_ends {A} (orig : A) a b : forall bs e out, emit_segments orig (Some a, Some b) e bs = Ok out ->
  forall o, In o out -> exists d, o_duration o = Some d /\ dt_ok (o_dtstart o + d) = true /\ o_original o = orig.
Proof.
  induction bs as [|s bs IH]; intros e out E o Ho; cbn [emit_segments] in E; [injection E as <-; destruct Ho|].
  destruct (in_period s (Some (e - s)) (Some a, Some b)) as [x| |] eqn:P; try discriminate. cbn [rbind] in E.
  destruct (emit_segments orig (Some a, Some b) s bs) as [r| |] eqn:R; try discriminate. cbn [rbind] in E. injection E as <-.
  destruct x; [destruct Ho as [<-|Ho]|]; try (now apply (IH s r R o)).
  cbn [o_duration o_dtstart o_original]. exists (e - s). split; [reflexivity|]. split; [|reflexivity].
  apply in_period_ok_true in P as (d & D & O & _). injection D as <-. exact O.
Qed.

Lemma segment_ends {A} a b (occ : occurrence A) out : segment_one a b occ = Ok out ->
  forall o, In o out -> exists d, o_duration o = Some d /\ dt_ok (o_dtstart o + d) = true /\ o_original o = o_original occ.
Proof.
  intros E. unfold segment_one in E. destruct (end_of _ _) as [y| |]; try discriminate. cbn [rbind] in E.
  destruct (day_borders _ _ _ _) as [l| |]; try discriminate. cbn [rbind] in E. exact (emit_ends _ _ _ _ _ _ E).
Qed.

Lemma none_matches evs m : matching_events evs (Some (mk_criteria (AMany [None]) None None None None)) = Ok m -> m = [].
Proof.
  destruct m as [|e m]; [reflexivity|]. intros E.
  destruct (proj1 (rfilter_in _ _ _ E e) (or_introl eq_refl)) as [_ M]. exfalso. revert M. cbn. discriminate.
Qed.

Lemma blocked_of_answers F evs a begins ends tb te occs : 
  get_occurrences_segmented F evs (Some begins, Some ends) (Some (mk_criteria (AMany [a]) None None None None)) = Ok occs ->
  exists l, rconcat_map (blocked_of a begins ends tb te) occs = Ok l.
Proof.
  intros E. apply rconcat_ok. intros o Ho. unfold get_occurrences_segmented in E.
  destruct (get_occurrences _ _ _ _) as [w| |] eqn:W; try discriminate. cbn [rbind assert_bounded] in E.
  apply (rconcat_in _ _ _ E) in Ho as (occ & segs & Hocc & S & Ho). destruct (segment_ends _ _ _ _ S o Ho) as (d & D & O & _).
  destruct a as [i|].
  - unfold blocked_of, blocks, get_status. cbn [attendee_id rbind].
    assert (exists b, (if e_transparent (o_original o) || String.eqb (e_status (o_original o)) "CANCELED" then Ok false
      else Ok (negb match dget (e_state (o_original o)) i with
                    | Some s => str_in s ["DECLINED"%string; "DELEGATED"%string] | None => false end)) = Ok b) as [b ->]
      by (destruct (_ || _); eauto).
    cbn [rbind]. destruct b; cbn [negb]; [|eauto]. rewrite D. unfold end_of, dt_add. rewrite O. cbn [rbind].
    destruct (_ <? begins); [eauto|]. destruct (ends <=? _); eauto.
  - exfalso. unfold get_occurrences in W. cbn [assert_bounded rbind] in W.
    destruct (matching_events _ _) as [m| |] eqn:M; try discriminate. apply none_matches in M. subst m. cbn in W. injection W as <-. destruct Hocc.
Qed.

Lemma night_last tb te : forall n d e l, night_blocks n tb te d e = Ok l -> d <= e -> e - d + 1 <= Z.of_nat n -> e < MAXORD.
Proof.
  induction n as [|n IH]; intros d e l E L N; [lia|]. cbn [night_blocks] in E. replace (d <=? e) with true in E by lia.
  unfold date_add in E at 1. destruct ((1 <=? d + 1) && (d + 1 <=? MAXORD)) eqn:O; [|discriminate]. cbn [rbind] in E.
  destruct (night_blocks n tb te (d + 1) e) as [r| |] eqn:R; try discriminate.
  destruct (Z.eq_dec d e) as [->|NE]; [lia|]. exact (IH _ _ _ R ltac:(lia) ltac:(lia)).
Qed.

(** Blocked periods of a part: they are found if those of the whole are, and they
    block the same instants. *)
Theorem C142_blocked F evs atts a b tb te l a' b' : dt_ok a = true -> dt_ok b = true -> a <= a' < b' -> b' <= b ->
  get_blocked F evs atts a b tb te = Ok l ->
  exists l', get_blocked F evs atts a' b' tb te = Ok l'
    /\ (evs_ok evs -> 0 <= tb < DAY /\ 0 <= te < DAY -> forall t, a' <= t < b' ->
        ((exists s e, In (s, e) l' /\ s <= t < e) <-> (exists s e, In (s, e) l /\ s <= t < e))).
Proof.
  intros OA OB HA HB E.
  assert (OA' : dt_ok a' = true) by (unfold dt_ok in *; lia). assert (OB' : dt_ok b' = true) by (unfold dt_ok in *; lia).
  assert (X : exists l', get_blocked F evs atts a' b' tb te = Ok l').
  { unfold get_blocked in *. destruct (rconcat_map _ atts) as [bl| |] eqn:R; try discriminate. cbn [rbind] in E.
    assert (Y : exists bl', rconcat_map (fun a0 => let* occs := get_occurrences_segmented F evs (Some a', Some b')
        (Some (mk_criteria (AMany [a0]) None None None None)) in rconcat_map (blocked_of a0 a' b' tb te) occs) atts = Ok bl').
    { apply rconcat_ok. intros i Hi. destruct (rconcat_all _ _ _ R i Hi) as [ys Y]. cbn beta in Y.
      destruct (get_occurrences_segmented F evs (Some a, Some b) _) as [w| |] eqn:W; try discriminate.
      destruct (C142_segmented _ _ _ _ _ _ a' b' OA' OB' HA HB W) as [w' W']. rewrite W'. cbn [rbind].
      exact (blocked_of_answers _ _ _ _ _ _ _ _ W'). }
    destruct Y as [bl' ->]. cbn [rbind]. clear R.
    apply dt_ok_date in OA', OB', OA, OB.
    destruct (if dt_time b =? 0 then _ else _) as [k| |] eqn:K in E; try discriminate. cbn [rbind] in E.
    destruct (night_blocks (night_fuel (dt_date a) k) tb te (dt_date a) k) as [nb| |] eqn:N; try discriminate.
    assert (KK : k = dt_date (b + DAY - 1) - 1).
    { destruct (dt_time b =? 0) eqn:T; [unfold date_add in K; destruct (_ && _) in K; [|discriminate]|];
        injection K as <-; unfold dt_date, dt_time, DAY in *; lia. }
    assert (KM : k < MAXORD).
    { destruct (Z_le_gt_dec (dt_date a) k) as [L|L]; [|lia]. eapply night_last; [exact N|exact L|]. unfold night_fuel. lia. }
    assert (exists k', (if dt_time b' =? 0 then date_add (dt_date b') (-1) else Ok (dt_date b')) = Ok k' /\ k' <= k) as (k' & -> & Hk').
    { destruct (dt_time b' =? 0) eqn:T; unfold date_add.
      - assert (2 <= dt_date b') by (unfold dt_date, dt_time, DAY in *; lia).
        replace ((1 <=? dt_date b' + -1) && (dt_date b' + -1 <=? MAXORD)) with true by lia. eexists. split; [reflexivity|].
        unfold dt_date, dt_time, DAY in *. lia.
      - eexists. split; [reflexivity|]. unfold dt_date, dt_time, DAY in *. lia. }
    cbn [rbind]. destruct (night_total (night_fuel (dt_date a') k') tb te (dt_date a') k' ltac:(lia) ltac:(lia)) as [nb' ->].
    cbn [rbind]. eauto. }
  destruct X as [l' E']. exists l'. split; [exact E'|]. intros EV W t T.
  pose proof (get_blocked_exact _ _ _ _ _ _ _ _ EV OA' OB' W E' t T) as P'.
  pose proof (get_blocked_exact _ _ _ _ _ _ _ _ EV OA OB W E t ltac:(lia)) as P. unfold covers in *. tauto.
Qed.
Print Assumptions C142_blocked.

(** and free periods of the part are found too *)
Theorem C142_free F evs atts a b tb te m l a' b' : dt_ok a = true -> dt_ok b = true -> a <= a' < b' -> b' <= b ->
  get_free F evs atts a b tb te m = Ok l -> exists l', get_free F evs atts a' b' tb te m = Ok l'.
Proof.
  intros OA OB HA HB E. unfold get_free in *. destruct (get_blocked F evs atts a b tb te) as [bl| |] eqn:B; try discriminate.
  destruct (C142_blocked _ _ _ _ _ _ _ _ a' b' OA OB HA HB B) as (bl' & -> & _). cbn [rbind]. eauto.
Qed.
Print Assumptions C142_free.

(** every day of a period that is answered is answered *)
Theorem C142_days F evs atts a b c l D : dt_ok a = true -> dt_ok b = true -> a <= D * DAY -> (D + 1) * DAY <= b ->
  calendar_segmented F evs atts (Some a, Some b) c = Ok l ->
  exists l', calendar_occurrences_in_day F evs atts D c = Ok l'.
Proof.
  intros OA OB HA HB E. unfold calendar_occurrences_in_day, day_period, dt_add.
  assert (O1 : dt_ok (D * DAY) = true) by (unfold dt_ok, DAY in *; lia).
  assert (O2 : dt_ok ((D + 1) * DAY) = true) by (unfold dt_ok, DAY in *; lia).
  replace (combine D 0 + DAY) with ((D + 1) * DAY) by (unfold combine; lia). rewrite O2. cbn [rbind].
  replace (combine D 0) with (D * DAY) by (unfold combine; lia).
  apply (C142_segmented F evs _ a b l (D * DAY) ((D + 1) * DAY) O1 O2); [unfold DAY in HA |- *; lia|lia|exact E].
Qed.
Print Assumptions C142_days.

(** a store with a daily event, and one whose imported rule repeats a day twice *)
Definition twice : event := q_event "m4" (at_ 0 8) HOUR (Some (mkRule KDaily 0 (Some 2) None [] [] "")) "CONFIRMED" false [("bob", "ACCEPTED")]%string.
Example C142_case :
  (forall e, In e store -> forward_rule e) /\ dt_ok (at_ 0 0) = true /\ dt_ok (at_ 4 0) = true
  /\ (exists l, get_occurrences 50 store (Some (at_ 0 0), Some (at_ 4 0)) None = Ok l /\ List.length l = 6%nat
      /\ List.length (filter (within (at_ 1 0) (at_ 3 0)) l) = 3%nat
      /\ get_occurrences 50 store (Some (at_ 1 0), Some (at_ 3 0)) None = Ok (filter (within (at_ 1 0) (at_ 3 0)) l))
  /\ (exists l, get_events store (Some (at_ 0 0), Some (at_ 4 0)) None = Ok l /\ List.length l = 3%nat
      /\ filter (event_within (at_ 1 0) (at_ 3 0)) l = [ev3])
  /\ (exists l, get_occurrences 50 (twice :: store) (Some (at_ 0 0), Some (at_ 4 0)) None = Ok l /\ List.length l = 8%nat)
  /\ (exists l, get_blocked 50 (twice :: store) [alice; bob] (at_ 0 0) (at_ 4 0) (9 * HOUR) (17 * HOUR) = Ok l /\ List.length l = 6%nat)
  /\ (exists l, get_free 50 (twice :: store) [alice; bob] (at_ 0 0) (at_ 4 0) (9 * HOUR) (17 * HOUR) None = Ok l /\ List.length l = 5%nat)
  /\ (exists l, calendar_segmented 50 (twice :: store) [alice; bob] (Some (at_ 0 0), Some (at_ 4 0)) None = Ok l /\ List.length l = 9%nat).
Proof.
  split. { intros e [<-|[<-|[<-|[]]]]; (split; [vm_compute; reflexivity|]); intros r E; vm_compute in E; try discriminate. injection E as <-. vm_compute. discriminate. }
  do 2 (split; [vm_compute; reflexivity|]).
  split; [eexists; split; [vm_compute; reflexivity|vm_compute; auto]|].
  split; [eexists; split; [vm_compute; reflexivity|vm_compute; auto]|].
  do 3 (split; [eexists; split; [vm_compute; reflexivity|vm_compute; reflexivity]|]).
  eexists; split; [vm_compute; reflexivity|vm_compute; reflexivity].
Qed.

(** The end of the period matters: an event every 29 February is found until
    February 2025 is looked at.  And with a rule that goes back in time, which an
    import can make, a part can show less than the part of the whole. *)
Definition leap : event := q_event "m5" ((ymd2ord 2024 2 29) * DAY) HOUR (Some (mkRule KYearly 1 None None [] [] "")) "CONFIRMED" false [].
Definition back : event := q_event "m6" (at_ 3 8) HOUR (Some (mkRule KDaily (-1) (Some 4) None [] [] "")) "CONFIRMED" false [].
Example C142_limits :
  get_occurrences 50 [leap] (Some (at_ 0 0), Some (at_ 50 0)) None = Ok []
  /\ get_occurrences 50 [leap] (Some (at_ 0 0), Some (at_ 90 0)) None = Raise ValueError
  /\ (exists l, get_occurrences 50 [back] (Some (at_ 0 0), Some (at_ 4 0)) None = Ok l /\ List.length (filter (within (at_ 0 0) (at_ 2 0)) l) = 2%nat)
  /\ get_occurrences 50 [back] (Some (at_ 0 0), Some (at_ 2 0)) None = Ok [].
Proof.
  do 2 (split; [vm_compute; reflexivity|]). split; [|vm_compute; reflexivity].
  eexists; split; [vm_compute; reflexivity|vm_compute; reflexivity].
Qed.
