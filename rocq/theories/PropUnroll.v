(** Property theorems C165: a series takes time like separate events, one for each of its dates. *)
From Verif Require Import Base PyDate DateFacts Recurrent SpecRecur RecurOrder RecurMisc CalTime Event Storage PropGroup.
From Coq Require Import ZifyBool.

(** ** Specification *)

(** an event of its own, under some id, for one date of a series *)
Definition single (e : event) (i : string) (d : Z) : event :=
  mkEvent i (combine d (dt_time (e_dtstart e))) (e_duration e) (e_title e) (e_description e) (e_location e)
          (e_status e) None (e_allday e) (e_categories e) (e_transparent e)
          (e_access e) (e_document e) (e_organizer e) (e_state e) (e_role e).

(** some of the series are replaced by single events, one for each date up to the day
    of [pe], under any ids *)
Inductive unrolled (pe : Z) : list event -> list event -> Prop :=
| Unrolled_nil : unrolled pe [] []
| Unrolled_keep e l l' : unrolled pe l l' -> unrolled pe (e :: l) (e :: l')
| Unrolled_series e r ds (name : Z -> string) l l' :
    e_recurrence e = Some r -> yields r (e_dtstart e) (Some (dt_date pe)) ds -> unrolled pe l l' ->
    unrolled pe (e :: l) (map (fun d => single e (name d) d) ds ++ l').

(** the same time of the same event, but for id, start and rule *)
Definition same_occasion (o o' : occurrence event) : Prop :=
  o_dtstart o' = o_dtstart o /\ o_duration o' = o_duration o
  /\ (o_original o' = o_original o
      \/ exists i, o_original o' = single (o_original o) i (dt_date (e_dtstart (o_original o')))).

(** ** Proofs *)
Lemma match_single c e i d : match_criteria c (single e i d) = match_criteria c e.
Proof.
  unfold match_criteria. change (existsb (in_category (single e i d))) with (existsb (in_category e)).
  change (get_organizer_id (single e i d)) with (get_organizer_id e).
  assert (M : forall l, match_attendees c (single e i d) l = match_attendees c e l).
  { induction l as [|a l IH]; [reflexivity|]. cbn [match_attendees].
    change (has_attendee (single e i d) a) with (has_attendee e a).
    change (get_status (single e i d) a) with (get_status e a). change (get_role (single e i d) a) with (get_role e a).
    now rewrite IH. }
  destruct (c_attendees c) as [l|]; [|reflexivity]. now rewrite M.
Qed.

Lemma rfilter_app {A} (f : A -> res bool) l1 l2 :
  rfilter f (l1 ++ l2) = let* x := rfilter f l1 in let* y := rfilter f l2 in Ok (x ++ y).
Proof.
  induction l1 as [|a l1 IH]; cbn [rfilter app].
  - destruct (rfilter f l2); reflexivity.
  - rewrite IH. destruct (f a) as [b| |]; try reflexivity. cbn [rbind]. destruct (rfilter f l1); try reflexivity. cbn [rbind].
    destruct (rfilter f l2); try reflexivity. cbn [rbind]. now destruct b.
Qed.
Lemma rfilter_const {A} (f : A -> res bool) b l : (forall x, In x l -> f x = Ok b) -> rfilter f l = Ok (if b then l else []).
Proof.
  induction l as [|a l IH]; intros H; cbn [rfilter]; [now destruct b|]. rewrite (H a (or_introl eq_refl)), IH by (intros; apply H; now right). now destruct b.
Qed.

Lemma matching_unrolled pe c evs evs' : unrolled pe evs evs' -> forall out, rfilter (match_criteria c) evs = Ok out ->
  exists out', rfilter (match_criteria c) evs' = Ok out' /\ unrolled pe out out'.
Proof.
  induction 1 as [|e l l' U IH|e r ds name l l' R Y U IH]; intros out E; cbn [rfilter] in E.
  - injection E as <-. exists []. split; [reflexivity|constructor].
  - destruct (match_criteria c e) as [b| |] eqn:M; try discriminate. cbn [rbind] in E. destruct (rfilter (match_criteria c) l) as [x| |]; try discriminate.
    cbn [rbind] in E. injection E as <-. destruct (IH x eq_refl) as (x' & E' & U'). cbn [rfilter]. rewrite M, E'. cbn [rbind].
    exists (if b then e :: x' else x'). split; [reflexivity|]. destruct b; [now constructor|exact U'].
  - destruct (match_criteria c e) as [b| |] eqn:M; try discriminate. cbn [rbind] in E. destruct (rfilter (match_criteria c) l) as [x| |]; try discriminate.
    cbn [rbind] in E. injection E as <-. destruct (IH x eq_refl) as (x' & E' & U'). rewrite rfilter_app, E', (rfilter_const _ b).
    + cbn [rbind]. eexists. split; [reflexivity|]. destruct b; [now apply (Unrolled_series pe e r)|exact U'].
    + intros y Hy. apply in_map_iff in Hy as (d & <- & _). now rewrite match_single.
Qed.

(** the dates found with any fuel are the dates of the rule *)
Lemma yields_found F r dt ed ds l : yields r dt ed ds -> apply F r dt (option_map VDate ed) = (l, GStop) -> l = ds.
Proof.
  intros [N Y] A. pose proof (apply_fuel r dt (option_map VDate ed) F (Nat.max F N) ltac:(lia)) as M. rewrite A in M. cbn [snd] in M.
  rewrite (Y (Nat.max F N)) in M by lia. congruence.
Qed.

Lemma same_refl o : same_occasion o o.
Proof. split; [reflexivity|]. split; [reflexivity|now left]. Qed.
Lemma forall2_refl {A} (R : A -> A -> Prop) l : (forall x, R x x) -> Forall2 R l l.
Proof. intros H. induction l; constructor; auto. Qed.

Lemma date_of_combine d t : dt_date (combine d (dt_time t)) = d.
Proof. unfold dt_date, combine, dt_time. pose proof (Z.mod_pos_bound t DAY ltac:(unfold DAY; lia)). symmetry. apply (Z.div_unique _ _ _ (t mod DAY)); lia. Qed.

Lemma expand_series F e p name : forall ds out, expand_dates e p ds = Ok out ->
  exists out', rconcat_map (fun x => expand F x p) (map (fun d => single e (name d) d) ds) = Ok out' /\ Forall2 same_occasion out out'.
Proof.
  induction ds as [|d ds IH]; intros out E; unfold expand_dates in E; cbn [rconcat_map map] in *.
  - injection E as <-. exists []. split; [reflexivity|constructor].
  - fold (expand_dates e p ds) in E. destruct (in_period (combine d (dt_time (e_dtstart e))) (e_duration e) p) as [b| |] eqn:B; try discriminate. cbn [rbind] in E.
    destruct (expand_dates e p ds) as [x| |]; try discriminate. cbn [rbind] in E. injection E as <-. destruct (IH x eq_refl) as (x' & E' & U').
    unfold expand at 1. cbn [e_recurrence single e_dtstart e_duration]. rewrite B. cbn [rbind]. rewrite E'. cbn [rbind]. eexists. split; [reflexivity|].
    apply Forall2_app; [|exact U']. destruct b; constructor; [|constructor]. split; [reflexivity|]. split; [reflexivity|]. right. exists (name d).
    cbn [o_original e_dtstart single]. now rewrite date_of_combine.
Qed.

Lemma expand_unrolled F p pe : snd p = Some pe -> forall l l', unrolled pe l l' -> forall out, rconcat_map (fun x => expand F x p) l = Ok out ->
  exists out', rconcat_map (fun x => expand F x p) l' = Ok out' /\ Forall2 same_occasion out out'.
Proof.
  intros P. induction 1 as [|e l l' U IH|e r ds name l l' R Y U IH]; intros out E; cbn [rconcat_map] in *.
  - injection E as <-. exists []. split; [reflexivity|constructor].
  - destruct (expand F e p) as [x| |]; try discriminate. cbn [rbind] in *. destruct (rconcat_map _ l) as [y| |]; try discriminate. cbn [rbind] in E. injection E as <-.
    destruct (IH y eq_refl) as (y' & E' & U'). rewrite E'. cbn [rbind]. eexists. split; [reflexivity|]. apply Forall2_app; [|exact U'].
    apply forall2_refl, same_refl.
  - destruct (expand F e p) as [x| |] eqn:X; try discriminate. cbn [rbind] in *. destruct (rconcat_map _ l) as [y| |]; try discriminate. cbn [rbind] in E. injection E as <-.
    destruct (IH y eq_refl) as (y' & E' & U'). unfold expand in X. rewrite R, P in X.
    destruct (apply F r (e_dtstart e) (Some (VDate (dt_date pe)))) as [ds' f] eqn:A. destruct (expand_dates e p ds') as [z| |] eqn:Z; try discriminate. cbn [rbind] in X.
    destruct f; try discriminate. injection X as ->. apply (yields_found F r (e_dtstart e) (Some (dt_date pe)) ds ds' Y) in A. subst ds'.
    destruct (expand_series F e p name ds x Z) as (x' & EX & SX). rewrite rconcat_app, EX, E'. cbn [rbind]. eexists. split; [reflexivity|]. now apply Forall2_app.
Qed.

Theorem C165_occurrences : forall F evs evs' b pe c out, unrolled pe evs evs' -> get_occurrences F evs (b, Some pe) c = Ok out ->
  exists out', get_occurrences F evs' (b, Some pe) c = Ok out' /\ Forall2 same_occasion out out'.
Proof.
  intros F evs evs' b pe c out U E. unfold get_occurrences in *. destruct (assert_bounded (b, Some pe)) as [z| |]; try discriminate. cbn [rbind] in *.
  unfold matching_events in *. destruct (rfilter _ evs) as [l| |] eqn:M; try discriminate. cbn [rbind] in E.
  destruct (matching_unrolled pe _ evs evs' U l M) as (l' & -> & U'). cbn [rbind]. exact (expand_unrolled F (b, Some pe) pe eq_refl l l' U' out E).
Qed.

Lemma rconcat_rel {A B} (R : A -> A -> Prop) (f g : A -> res (list B)) (S : B -> B -> Prop) :
  (forall a a' y, R a a' -> f a = Ok y -> exists y', g a' = Ok y' /\ Forall2 S y y') ->
  forall l l', Forall2 R l l' -> forall out, rconcat_map f l = Ok out -> exists out', rconcat_map g l' = Ok out' /\ Forall2 S out out'.
Proof.
  intros H. induction 1 as [|a a' l l' Ha Hl IH]; intros out E; cbn [rconcat_map] in *.
  - injection E as <-. exists []. split; [reflexivity|constructor].
  - destruct (f a) as [y| |] eqn:Y; try discriminate. cbn [rbind] in E. destruct (rconcat_map f l) as [z| |]; try discriminate. cbn [rbind] in E. injection E as <-.
    destruct (H a a' y Ha Y) as (y' & -> & SY). destruct (IH z eq_refl) as (z' & -> & SZ). cbn [rbind]. eexists. split; [reflexivity|]. now apply Forall2_app.
Qed.

(** occurrences of the two originals, alike but for what they belong to *)
Lemma emit_same a a' p : (a' = a \/ exists i, a' = single a i (dt_date (e_dtstart a'))) -> forall bs e y, emit_segments a p e bs = Ok y ->
  exists y', emit_segments a' p e bs = Ok y' /\ Forall2 same_occasion y y'.
Proof.
  intros S. induction bs as [|s bs IH]; intros e y E; cbn [emit_segments] in *.
  - injection E as <-. exists []. split; [reflexivity|constructor].
  - destruct (in_period s (Some (e - s)) p) as [b| |]; try discriminate. cbn [rbind] in *. destruct (emit_segments a p s bs) as [z| |] eqn:Z; try discriminate.
    cbn [rbind] in E. injection E as <-. destruct (IH s z Z) as (z' & -> & SZ). cbn [rbind]. eexists. split; [reflexivity|].
    destruct b; [|exact SZ]. constructor; [|exact SZ]. split; [reflexivity|]. split; [reflexivity|exact S].
Qed.

Theorem C165_segmented : forall F evs evs' b pe c out, unrolled pe evs evs' -> get_occurrences_segmented F evs (b, Some pe) c = Ok out ->
  exists out', get_occurrences_segmented F evs' (b, Some pe) c = Ok out' /\ Forall2 same_occasion out out'.
Proof.
  intros F evs evs' b pe c out U E. unfold get_occurrences_segmented in *. destruct (get_occurrences F evs (b, Some pe) c) as [l| |] eqn:G; try discriminate.
  destruct (C165_occurrences F evs evs' b pe c l U G) as (l' & -> & S). cbn [rbind] in *. destruct (assert_bounded (b, Some pe)) as [z| |]; try discriminate. cbn [rbind] in *.
  unfold segment_occurrences in *. refine (rconcat_rel same_occasion _ _ same_occasion _ l l' S out E).
  intros o o' y (D & L & O) Y. unfold segment_one in *. rewrite D, L. destruct (end_of (o_dtstart o) (o_duration o)) as [q| |]; try discriminate. cbn [rbind] in *.
  destruct (day_borders _ _ _ _) as [bs| |]; try discriminate. cbn [rbind] in *. exact (emit_same _ _ _ O _ _ _ Y).
Qed.

Lemma blocks_same a o o' : same_occasion o o' -> blocks a (o_original o') = blocks a (o_original o).
Proof. intros (_ & _ & [-> | [i ->]]); reflexivity. Qed.
Lemma blocked_same a b e tb te o o' : same_occasion o o' -> blocked_of a b e tb te o' = blocked_of a b e tb te o.
Proof. intros S. unfold blocked_of. rewrite (blocks_same a o o' S). destruct S as (D & L & _). now rewrite D, L. Qed.
Lemma blocked_all_same a b e tb te l l' : Forall2 same_occasion l l' -> rconcat_map (blocked_of a b e tb te) l' = rconcat_map (blocked_of a b e tb te) l.
Proof. induction 1 as [|o o' l l' S _ IH]; [reflexivity|]. cbn [rconcat_map]. now rewrite (blocked_same a b e tb te o o' S), IH. Qed.

Theorem C165_blocked : forall F evs evs' atts begins ends tb te l, unrolled ends evs evs' ->
  get_blocked F evs atts begins ends tb te = Ok l -> get_blocked F evs' atts begins ends tb te = Ok l.
Proof.
  intros F evs evs' atts b e tb te l U E. unfold get_blocked in *.
  match type of E with (let* _ := ?m in _) = _ => destruct m as [bl| |] eqn:B; try discriminate end.
  replace (rconcat_map _ atts) with (Ok bl); [exact E|]. symmetry. clear E. revert bl B. induction atts as [|a atts IH]; intros bl B; cbn [rconcat_map] in *; [exact B|].
  destruct (get_occurrences_segmented F evs (Some b, Some e) _) as [occs| |] eqn:G; try discriminate. cbn [rbind] in B.
  destruct (C165_segmented F evs evs' (Some b) e _ occs U G) as (occs' & -> & S). cbn [rbind]. rewrite (blocked_all_same a b e tb te occs occs' S).
  destruct (rconcat_map (blocked_of a b e tb te) occs) as [x| |]; try discriminate. cbn [rbind] in *.
  destruct (rconcat_map _ atts) as [y| |] eqn:Y; try discriminate. rewrite (IH y eq_refl). exact B.
Qed.

Theorem C165_free : forall F evs evs' atts begins ends tb te m l, unrolled ends evs evs' ->
  get_free F evs atts begins ends tb te m = Ok l -> get_free F evs' atts begins ends tb te m = Ok l.
Proof.
  intros F evs evs' atts b e tb te m l U E. unfold get_free in *. destruct (get_blocked F evs atts b e tb te) as [bl| |] eqn:B; try discriminate.
  now rewrite (C165_blocked F evs evs' atts b e tb te bl U B).
Qed.

Lemma yields_by F r dt e l : apply F r dt (Some (VDate e)) = (l, GStop) -> yields r dt (Some e) l.
Proof. intros A. exists F. intros F' HF. pose proof (apply_fuel r dt (Some (VDate e)) F F' HF) as M. rewrite A in M. exact M. Qed.

(** a meeting every Monday and Thursday from 9 to 11, without one of the dates, beside a
    single one; the series taken apart *)
Definition meeting_of (i : string) (t : Z) (r : option rule) : event :=
  mkEvent i t (Some (2 * HOUR)) "Round" "" "" "CONFIRMED" r false [] false "PUBLIC" None (Some "ann"%string) [("ann", "ACCEPTED")]%string [("ann", "CHAIR")]%string.
Definition mondays : rule := mkRule KWeekly 1 None None [VDate 738889] [3] "monthday"%string.

Example C165_case :
  let t := 738886 * DAY + 9 * HOUR in let pe := 738895 * DAY in
  let series := meeting_of "w"%string t (Some mondays) in let other := meeting_of "o"%string (t + DAY) None in
  let apart := map (fun d => single series (if d =? 738886 then "w1"%string else "w2"%string) d) [738886; 738893] in
  unrolled pe [other; series] (other :: apart ++ [])
  /\ (exists l, get_blocked 40 [other; series] [Some "ann"%string] (738886 * DAY) pe (8 * HOUR) (18 * HOUR) = Ok l
       /\ In (738886 * DAY + 9 * HOUR, 738886 * DAY + 11 * HOUR) l /\ In (738893 * DAY + 9 * HOUR, 738893 * DAY + 11 * HOUR) l)
  /\ (exists l, get_free 40 [other; series] [Some "ann"%string] (738886 * DAY) pe (8 * HOUR) (18 * HOUR) (Some HOUR) = Ok l
       /\ In (738889 * DAY + 8 * HOUR, 738889 * DAY + 18 * HOUR) l)
  /\ (exists o, get_occurrences 40 [other; series] (Some (738886 * DAY), Some pe) None = Ok o /\ List.length o = 3%nat)
  /\ (exists o, get_occurrences_segmented 40 [other; series] (Some (738886 * DAY), Some pe) None = Ok o /\ List.length o = 3%nat).
Proof.
  cbv zeta. split.
  - constructor. apply (Unrolled_series _ _ mondays _ (fun d => if d =? 738886 then "w1"%string else "w2"%string)); [reflexivity| |constructor].
    apply (yields_by 40). vm_compute. reflexivity.
  - split; [eexists; split; [vm_compute; reflexivity|vm_compute; auto 20]|]. split; [eexists; split; [vm_compute; reflexivity|vm_compute; auto 20]|].
    split; eexists; (split; [vm_compute; reflexivity|reflexivity]).
Qed.

Print Assumptions C165_occurrences.
Print Assumptions C165_segmented.
Print Assumptions C165_blocked.
Print Assumptions C165_free.
