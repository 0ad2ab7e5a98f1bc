(** Property theorems C163: blocked and free periods say when time is taken, not by what. *)
From Verif Require Import Base PyDate DateFacts Recurrent SpecRecur Util UtilProofs CalTime TimeProofs Event Storage
  QueryProofs BlockProofs PropQuery PropFree PropGroup.
From Coq Require Import ZifyBool.
Ltac Zify.zify_post_hook ::= Z.div_mod_to_equations.
Local Opaque ord2ymd year_of month_of day_of ymd2ord days_in_month is_leap.

(** ** Specification *)
(** the instant is outside the working hours, or one of the attendees is in a meeting *)
Definition taken_at (evs : list event) (atts : list attendee) (tb te t : Z) : Prop :=
  (t mod DAY < tb \/ te <= t mod DAY) \/ busy evs atts t.

(** two storages, each with a list of people, take the same time of a period *)
Definition same_time (begins ends tb te : Z) (evs1 : list event) (atts1 : list attendee) (evs2 : list event) (atts2 : list attendee) : Prop :=
  (forall t, begins <= t < ends -> (taken_at evs1 atts1 tb te t <-> taken_at evs2 atts2 tb te t))
  /\ (forall t, begins < t < ends -> ~ taken_at evs1 atts1 tb te t -> ~ taken_at evs1 atts1 tb te (t - 1) ->
       (reminder_at evs1 atts1 t <-> reminder_at evs2 atts2 t)).

(** ** What the blocked periods reach *)
Definition at_night (begins ends tb te u : Z) : Prop :=
  exists k, dt_date begins <= k < dt_date (ends + DAY - 1)
  /\ (2 * combine k 0 <= u <= 2 * combine k tb \/ 2 * combine k te <= u <= 2 * combine (k + 1) 0).

Lemma blocked_reaches F evs atts b e tb te l : evs_ok evs -> dt_ok b = true -> dt_ok e = true -> window_ok tb te ->
  get_blocked F evs atts b e tb te = Ok l -> forall u, reaches l u <->
    at_night b e tb te u
    \/ (exists t, b <= t < e /\ busy evs atts t /\ ~ outside tb te t /\ 2 * t <= u <= 2 * t + 2)
    \/ (exists t, b < t < e /\ reminder_at evs atts t /\ u = 2 * t).
Proof.
  intros OK OB OE W E u. pose proof (get_blocked_exact _ _ _ _ _ _ _ _ OK OB OE W E) as EX.
  pose proof (get_blocked_form _ _ _ _ _ _ _ _ OK OB OE W E) as [G WF].
  destruct (blocked_zero _ _ _ _ _ _ _ _ OK OB OE W E) as (bl & nb & -> & BL & BZ & N). destruct W as [W1 W2].
  assert (NB : forall u, reaches nb u <-> at_night b e tb te u).
  { intros v. unfold at_night. split.
    - intros (s & t & H & T). apply N in H as (k & K & [X|X]); injection X as -> ->; exists k; auto.
    - intros (k & K & [T|T]); [exists (combine k 0), (combine k tb)|exists (combine k te), (combine (k + 1) 0)]; (split; [apply N; exists k; auto|exact T]). }
  assert (NT : neat (dedup_pairs bl ++ nb)).
  { intros x Hx. apply in_app_iff in Hx as [Hx|Hx].
    - apply (proj1 (dedup_in _ _)) in Hx. destruct (BL x Hx) as (s & t & -> & B1 & B2 & B3 & B4 & _). unfold wf, hidden, clipped. cbn [fst snd].
      set (D := dt_date s) in *.
      assert (DR : dt_date b <= D < dt_date (e + DAY - 1)) by (subst D; unfold dt_date, DAY in *; lia).
      destruct (Z_le_gt_dec (Z.max s (combine D tb)) (Z.min t (combine D te))) as [L|L]; [now left|right].
      destruct (Z_lt_le_dec t (combine D tb)) as [C|C].
      + exists (combine D 0), (combine D tb). split; [apply in_app_iff; right; apply N; exists D; auto|].
        subst D. unfold combine, dt_date, DAY in *. lia.
      + exists (combine D te), (combine (D + 1) 0). split; [apply in_app_iff; right; apply N; exists D; auto|].
        subst D. unfold combine, dt_date, DAY in *. lia.
    - apply N in Hx as (k & _ & [-> | ->]); left; unfold wf, combine, DAY in *; cbn [fst snd]; lia. }
  rewrite (merged_reaches _ u NT), reaches_app, dedup_reaches, NB.
  assert (OUT : forall t, b <= t < e -> outside tb te t -> forall v, 2 * t <= v <= 2 * t + 2 -> at_night b e tb te v).
  { intros t T O v V. exists (dt_date t). split; [unfold dt_date, DAY in *; lia|]. unfold outside, combine, dt_date, dt_time, DAY in *. lia. }
  assert (COV : forall t, covers bl t -> b <= t < e -> ~ outside tb te t -> busy evs atts t).
  { intros t C T O. destruct (proj1 (EX t T)); [|contradiction|assumption]. apply remove_overlaps_covers, covers_app. left. now apply dedup_covers. }
  split.
  - intros [(p & q & H & T)|H]; [|now left]. destruct (BL _ H) as (s & t & X & B1 & B2 & B3 & B4 & B5).
    unfold clipped in X. assert (P : p = Z.max s (combine (dt_date s) tb)) by congruence. assert (Q : q = Z.min t (combine (dt_date s) te)) by congruence. clear X.
    destruct (Z_lt_le_dec p q) as [L|L].
    + (* a piece of some length *)
      assert (IN : exists v, p <= v < q /\ 2 * v <= u <= 2 * v + 2).
      { destruct (Z.eq_dec u (2 * q)) as [->|NE]; [exists (q - 1); lia|exists (u / 2); lia]. }
      destruct IN as (v & V1 & V2).
      assert (VB : b <= v < e) by lia.
      assert (O : ~ outside tb te v).
      { assert (dt_date v = dt_date s) by (unfold combine, dt_date, DAY in *; lia). unfold outside. unfold combine, dt_date, dt_time, DAY in *. lia. }
      right; left. exists v. split; [exact VB|]. split; [|auto]. apply COV; auto. exists p, q. auto.
    + assert (p = q) by lia. subst q. assert (U : u = 2 * p) by lia.
      set (D := dt_date s) in *.
      assert (DR : dt_date b <= D < dt_date (e + DAY - 1)) by (subst D; unfold dt_date, DAY in *; lia).
      destruct (Z.eq_dec s t) as [<-|ST].
      2:{ left. exists D. split; [exact DR|]. subst D. unfold combine, dt_date, DAY in *. lia. }
      destruct B5 as [B5|[B5|(_ & B6 & B7)]]; [lia| |].
      * left. exists D. split; [exact DR|]. subst D. unfold combine, dt_date, dt_time, DAY in *. lia.
      * destruct (Z.eq_dec p s) as [PS|PS]; [right; right; exists s; split; [exact B6|]; split; [exact B7|lia]|].
        left. exists D. split; [exact DR|]. subst D. unfold combine, dt_date, DAY in *. lia.
  - intros [H|[(t & T & BU & O & U)|(t & T & R & ->)]]; [now right| |].
    + left. assert (C : covers (dedup_pairs bl ++ nb) t) by (apply remove_overlaps_covers, (EX t T); auto).
      apply covers_app in C as [C|C].
      * destruct (proj1 (dedup_covers _ _) C) as (s & q & H & V). exists s, q. split; [exact H|lia].
      * exfalso. apply O. destruct C as (s & q & H & V). apply N in H as (k & K & [X|X]); injection X as -> ->;
          unfold outside, combine, dt_time, DAY in *; lia.
    + pose proof (BZ t T R) as H. unfold clipped in H. set (D := dt_date t) in *.
      destruct (Z_le_gt_dec (combine D tb) t) as [L1|L1]; [destruct (Z_le_gt_dec t (combine D te)) as [L2|L2]|].
      * left. rewrite Z.max_l, Z.min_l in H by lia. exists t, t. split; [exact H|lia].
      * right. apply (OUT t); [lia| |lia]. unfold outside. subst D. unfold combine, dt_date, dt_time, DAY in *. lia.
      * right. apply (OUT t); [lia| |lia]. unfold outside. subst D. unfold combine, dt_date, dt_time, DAY in *. lia.
Qed.

Lemma taken_split evs atts tb te t : taken_at evs atts tb te t <-> outside tb te t \/ busy evs atts t.
Proof. reflexivity. Qed.

Lemma outside_dec tb te t : outside tb te t \/ ~ outside tb te t.
Proof. unfold outside. lia. Qed.

Lemma night_outside b e tb te t : window_ok tb te -> b <= t < e -> outside tb te t -> forall v, 2 * t <= v <= 2 * t + 2 -> at_night b e tb te v.
Proof.
  intros [W1 W2] T O v V. exists (dt_date t). split; [unfold dt_date, DAY in *; lia|]. unfold outside, combine, dt_date, dt_time, DAY in *. lia.
Qed.
Lemma at_night_outside b e tb te t : window_ok tb te -> b < t < e -> at_night b e tb te (2 * t) -> outside tb te t \/ outside tb te (t - 1).
Proof. intros [W1 W2] T (k & K & H). unfold outside, combine, dt_time, DAY in *. lia. Qed.

(** * C163 *)
(** Two queries over the same period give the same list of blocked periods exactly if the same time is taken. *)
Theorem C163_blocked_iff : forall F1 F2 evs1 evs2 atts1 atts2 begins ends tb te l1 l2,
  evs_ok evs1 -> evs_ok evs2 -> dt_ok begins = true -> dt_ok ends = true -> 0 <= tb < DAY /\ 0 <= te < DAY ->
  get_blocked F1 evs1 atts1 begins ends tb te = Ok l1 -> get_blocked F2 evs2 atts2 begins ends tb te = Ok l2 ->
  (l1 = l2 <-> same_time begins ends tb te evs1 atts1 evs2 atts2).
Proof.
  intros F1 F2 evs1 evs2 atts1 atts2 b e tb te l1 l2 OK1 OK2 OB OE W E1 E2.
  pose proof (get_blocked_exact _ _ _ _ _ _ _ _ OK1 OB OE W E1) as X1. pose proof (get_blocked_exact _ _ _ _ _ _ _ _ OK2 OB OE W E2) as X2.
  pose proof (blocked_reaches _ _ _ _ _ _ _ _ OK1 OB OE W E1) as R1. pose proof (blocked_reaches _ _ _ _ _ _ _ _ OK2 OB OE W E2) as R2.
  split.
  - intros <-. assert (SAME : forall t, b <= t < e -> (taken_at evs1 atts1 tb te t <-> taken_at evs2 atts2 tb te t)).
    { intros t T. rewrite !taken_split, <- (X1 t T). exact (X2 t T). }
    split; [exact SAME|]. intros t T NT NP.
    assert (HALF : forall evs atts, (forall u, reaches l1 u -> at_night b e tb te u \/ (exists t, b <= t < e /\ busy evs atts t /\ ~ outside tb te t /\ 2 * t <= u <= 2 * t + 2)
        \/ (exists t, b < t < e /\ reminder_at evs atts t /\ u = 2 * t)) -> ~ taken_at evs atts tb te t -> ~ taken_at evs atts tb te (t - 1) ->
        reaches l1 (2 * t) -> reminder_at evs atts t).
    { intros evs atts R A B RE. rewrite taken_split in A, B. destruct (R _ RE) as [H|[(v & V & BU & O & U)|(v & V & RM & U)]].
      - exfalso. destruct (at_night_outside _ _ _ _ _ W T H); tauto.
      - exfalso. assert (D : v = t \/ v = t - 1) by lia. destruct D as [-> | ->]; tauto.
      - assert (v = t) by lia. now subst v. }
    split; intros RM.
    + apply HALF; [intros u; apply R2|now rewrite <- SAME by lia|now rewrite <- SAME by lia|]. apply R1. right; right. exists t. auto.
    + apply HALF; [intros u; apply R1|exact NT|exact NP|]. apply R2. right; right. exists t. auto.
  - intros [S1 S2]. destruct (get_blocked_form _ _ _ _ _ _ _ _ OK1 OB OE W E1) as [G1 V1]. destruct (get_blocked_form _ _ _ _ _ _ _ _ OK2 OB OE W E2) as [G2 V2].
    apply reaches_unique; auto.
    assert (HALF : forall ea aa eb ab la lb,
      (forall t, b <= t < e -> (taken_at ea aa tb te t <-> taken_at eb ab tb te t)) ->
      (forall t, b < t < e -> ~ taken_at ea aa tb te t -> ~ taken_at ea aa tb te (t - 1) -> reminder_at ea aa t -> reminder_at eb ab t) ->
      (forall t, b <= t < e -> (covers la t <-> outside tb te t \/ busy ea aa t)) ->
      (forall u, reaches la u -> at_night b e tb te u \/ (exists t, b <= t < e /\ busy ea aa t /\ ~ outside tb te t /\ 2 * t <= u <= 2 * t + 2)
        \/ (exists t, b < t < e /\ reminder_at ea aa t /\ u = 2 * t)) ->
      (forall u, at_night b e tb te u \/ (exists t, b <= t < e /\ busy eb ab t /\ ~ outside tb te t /\ 2 * t <= u <= 2 * t + 2)
        \/ (exists t, b < t < e /\ reminder_at eb ab t /\ u = 2 * t) -> reaches lb u) ->
      forall u, reaches la u -> reaches lb u).
    { intros ea aa eb ab la lb ST SR CA RA RB u RE.
      assert (TK : forall t, b <= t < e -> taken_at ea aa tb te t -> 2 * t <= u <= 2 * t + 2 -> reaches lb u).
      { intros t T K U. apply RB. destruct (outside_dec tb te t) as [O|O]; [left; exact (night_outside _ _ _ _ _ W T O u U)|].
        right; left. exists t. split; [exact T|]. apply (ST t T), taken_split in K. destruct K; [contradiction|]. auto. }
      destruct (RA u RE) as [H|[(t & T & BU & O & U)|(t & T & RM & ->)]].
      - apply RB. now left.
      - apply (TK t T); [right; exact BU|exact U].
      - assert (DEC : forall v, b <= v < e -> taken_at ea aa tb te v \/ ~ taken_at ea aa tb te v).
        { intros v V. rewrite taken_split, <- (CA v V). destruct (existsb (fun x => (fst x <=? v) && (v <? snd x)) la) eqn:X.
          - left. apply existsb_exists in X as ([p q] & P & Q). exists p, q. split; [exact P|]. cbn [fst snd] in Q. lia.
          - right. intros (p & q & P & Q). assert (Y : existsb (fun x => (fst x <=? v) && (v <? snd x)) la = true); [|congruence].
            apply existsb_exists. exists (p, q). split; [exact P|]. cbn [fst snd]. lia. }
        destruct (DEC t ltac:(lia)) as [K|K]; [apply (TK t); [lia|exact K|lia]|].
        destruct (DEC (t - 1) ltac:(lia)) as [K'|K']; [apply (TK (t - 1)); [lia|exact K'|lia]|].
        apply RB. right; right. exists t. split; [exact T|]. split; [now apply SR|reflexivity]. }
    intros u. split.
    + apply (HALF evs1 atts1 evs2 atts2); auto; [intros t T A B; now apply S2|intros v; apply R1|intros v; apply R2].
    + apply (HALF evs2 atts2 evs1 atts1); auto; [intros t T; symmetry; now apply S1| |intros v; apply R2|intros v; apply R1].
      intros t T A B RM. rewrite <- S1 in A by lia. rewrite <- S1 in B by lia. now apply (S2 t T A B).
Qed.
Print Assumptions C163_blocked_iff.

(** and then the same free periods, whatever the minimal duration *)
Theorem C163_free : forall F1 F2 evs1 evs2 atts1 atts2 begins ends tb te m l1 l2,
  evs_ok evs1 -> evs_ok evs2 -> dt_ok begins = true -> dt_ok ends = true -> 0 <= tb < DAY /\ 0 <= te < DAY ->
  same_time begins ends tb te evs1 atts1 evs2 atts2 ->
  get_free F1 evs1 atts1 begins ends tb te m = Ok l1 -> get_free F2 evs2 atts2 begins ends tb te m = Ok l2 -> l1 = l2.
Proof.
  intros F1 F2 evs1 evs2 atts1 atts2 b e tb te m l1 l2 OK1 OK2 OB OE W S E1 E2. unfold get_free in E1, E2.
  destruct (get_blocked F1 evs1 atts1 b e tb te) as [x1| |] eqn:B1; try discriminate.
  destruct (get_blocked F2 evs2 atts2 b e tb te) as [x2| |] eqn:B2; try discriminate.
  assert (x1 = x2) by (apply (C163_blocked_iff _ _ _ _ _ _ _ _ _ _ _ _ OK1 OK2 OB OE W B1 B2); exact S). subst x2. cbn [rbind] in *. congruence.
Qed.
Print Assumptions C163_free.

(** a copy of an event (under another id, with other texts, roles or organizer) takes no further time *)
Definition same_meeting (e e' : event) : Prop :=
  e_dtstart e = e_dtstart e' /\ e_duration e = e_duration e' /\ e_recurrence e = e_recurrence e'
  /\ e_transparent e = e_transparent e' /\ e_status e = e_status e' /\ e_state e = e_state e'.

Theorem C163_copy : forall F1 F2 x y (atts : list attendee) begins ends tb te e e' l1 l2,
  evs_ok (x ++ y) -> evs_ok (x ++ e' :: y) -> dt_ok begins = true -> dt_ok ends = true -> 0 <= tb < DAY /\ 0 <= te < DAY ->
  In e (x ++ y) -> same_meeting e e' ->
  get_blocked F1 (x ++ y) atts begins ends tb te = Ok l1 -> get_blocked F2 (x ++ e' :: y) atts begins ends tb te = Ok l2 -> l1 = l2.
Proof.
  intros F1 F2 x y atts b en tb te e e' l1 l2 OK1 OK2 OB OE W I (S1 & S2 & S3 & S4 & S5 & S6) E1 E2.
  apply (C163_blocked_iff _ _ _ _ _ _ _ _ _ _ _ _ OK1 OK2 OB OE W E1 E2).
  assert (MORE : forall v, In v (x ++ y) -> In v (x ++ e' :: y)) by (intros v V; apply in_app_iff in V; apply in_app_iff; cbn [In]; tauto).
  assert (LESS : forall v, In v (x ++ e' :: y) -> v = e' \/ In v (x ++ y)).
  { intros v V. apply in_app_iff in V as [V|[<-|V]]; [right|now left|right]; apply in_app_iff; auto. }
  assert (TT : forall i, takes_time e' i -> takes_time e i) by (intros i; unfold takes_time, attends; now rewrite S4, S5, S6).
  assert (OC : forall t, occurs e' t -> occurs e t) by (intros t; unfold occurs; now rewrite S1, S3).
  assert (HP : forall t, happens e' t -> happens e t).
  { intros t. unfold happens, occurs. now rewrite S1, S2, S3. }
  assert (BU : forall t, busy (x ++ y) atts t <-> busy (x ++ e' :: y) atts t).
  { intros t. split; intros (i & v & A & B & C & D).
    - exists i, v. auto.
    - apply LESS in B as [->|B]; [exists i, e|exists i, v]; auto. }
  split.
  - intros t T. rewrite !taken_split, BU. reflexivity.
  - intros t _ _ _. split; intros (i & v & A & B & C & D & G).
    + exists i, v. auto.
    + apply LESS in B as [->|B]; [exists i, e|exists i, v; auto 8]. rewrite S2. auto 8.
Qed.
Print Assumptions C163_copy.

(** a meeting may be entered in two parts *)
Theorem C163_cut : forall F1 F2 x y (atts : list attendee) begins ends tb te e e1 e2 d1 d2 l1 l2,
  evs_ok (x ++ e :: y) -> evs_ok (x ++ e1 :: e2 :: y) -> dt_ok begins = true -> dt_ok ends = true -> 0 <= tb < DAY /\ 0 <= te < DAY ->
  e_recurrence e = None -> e_recurrence e1 = None -> e_recurrence e2 = None ->
  e_dtstart e1 = e_dtstart e -> e_dtstart e2 = e_dtstart e + d1 -> 0 < d1 -> 0 < d2 ->
  e_duration e1 = Some d1 -> e_duration e2 = Some d2 -> e_duration e = Some (d1 + d2) ->
  (forall i, In (Some i) atts -> (takes_time e1 i <-> takes_time e i) /\ (takes_time e2 i <-> takes_time e i)) ->
  get_blocked F1 (x ++ e :: y) atts begins ends tb te = Ok l1 -> get_blocked F2 (x ++ e1 :: e2 :: y) atts begins ends tb te = Ok l2 -> l1 = l2.
Proof.
  intros F1 F2 x y atts b en tb te e e1 e2 d1 d2 l1 l2 OK1 OK2 OB OE W R R1 R2 S1 S2 P1 P2 D1 D2 D TK E1 E2.
  apply (C163_blocked_iff _ _ _ _ _ _ _ _ _ _ _ _ OK1 OK2 OB OE W E1 E2).
  assert (HP : forall t, happens e t <-> happens e1 t \/ happens e2 t).
  { intros t. unfold happens, occurs. rewrite R, R1, R2, S1, S2, D, D1, D2. split.
    - intros (s & d & A & B & C). assert (d = d1 + d2) by congruence. subst.
      destruct (Z_lt_le_dec t (e_dtstart e + d1)) as [L|L]; [left; exists (e_dtstart e), d1|right; exists (e_dtstart e + d1), d2]; repeat split; lia.
    - intros [(s & d & A & B & C)|(s & d & A & B & C)]; [assert (d = d1) by congruence|assert (d = d2) by congruence]; subst;
        exists (e_dtstart e), (d1 + d2); repeat split; lia. }
  assert (SAME : forall v, In v (x ++ e :: y) <-> v = e \/ In v x \/ In v y) by (intros v; rewrite in_app_iff; cbn [In]; intuition congruence).
  assert (SAME2 : forall v, In v (x ++ e1 :: e2 :: y) <-> v = e1 \/ v = e2 \/ In v x \/ In v y) by (intros v; rewrite in_app_iff; cbn [In]; intuition congruence).
  split.
  - intros t T. rewrite !taken_split.
    enough (BU : busy (x ++ e :: y) atts t <-> busy (x ++ e1 :: e2 :: y) atts t) by now rewrite BU.
    split; intros (i & v & A & B & C & G).
    + apply SAME in B as [->|B].
      * apply HP in G as [G|G]; [exists i, e1|exists i, e2]; (split; [exact A|split; [apply SAME2; auto|split; [destruct (TK i A); tauto|exact G]]]).
      * exists i, v. split; [exact A|]. split; [apply SAME2; auto|auto].
    + apply SAME2 in B as [->|[->|B]].
      * exists i, e. split; [exact A|]. split; [apply SAME; auto|]. split; [destruct (TK i A); tauto|apply HP; auto].
      * exists i, e. split; [exact A|]. split; [apply SAME; auto|]. split; [destruct (TK i A); tauto|apply HP; auto].
      * exists i, v. split; [exact A|]. split; [apply SAME; auto|auto].
  - intros t _ _ _. split; intros (i & v & A & B & C & G & H).
    + apply SAME in B as [->|B]; [exfalso; rewrite D in G; assert (d1 + d2 = 0) by congruence; lia|].
      exists i, v. split; [exact A|]. split; [apply SAME2; auto|auto].
    + apply SAME2 in B as [->|[->|B]]; [exfalso; assert (d1 = 0) by congruence; lia|exfalso; assert (d2 = 0) by congruence; lia|].
      exists i, v. split; [exact A|]. split; [apply SAME; auto|auto].
Qed.
Print Assumptions C163_cut.

Definition first_half := q_event "m4" (at_ 0 10) HOUR None "TENTATIVE" false [("alice", "ACCEPTED"); ("carol", "ACCEPTED")]%string.
Definition second_half := q_event "m5" (at_ 0 11) HOUR None "CONFIRMED" false [("alice", "NEEDS-ACTION")]%string.
Definition call_at (h : Z) := q_event "m6" (at_ 0 h) 0 None "CONFIRMED" false [("alice", "ACCEPTED")]%string.

Example C163_case : evs_ok [ev1] /\ evs_ok [first_half; second_half]
  /\ (forall i, In (Some i) [alice] -> (takes_time first_half i <-> takes_time ev1 i) /\ (takes_time second_half i <-> takes_time ev1 i))
  /\ get_blocked 50 [ev1] [alice] (at_ 0 0) (at_ 1 0) (9 * HOUR) (17 * HOUR)
     = Ok [(at_ 0 0, at_ 0 9); (at_ 0 10, at_ 0 12); (at_ 0 17, at_ 1 0)]
  /\ get_blocked 50 [first_half; second_half] [alice] (at_ 0 0) (at_ 1 0) (9 * HOUR) (17 * HOUR)
     = Ok [(at_ 0 0, at_ 0 9); (at_ 0 10, at_ 0 12); (at_ 0 17, at_ 1 0)]
  (* a reminder in the middle of a meeting is not seen, one on its own is *)
  /\ get_blocked 50 [ev1; call_at 11] [alice] (at_ 0 0) (at_ 1 0) (9 * HOUR) (17 * HOUR)
     = Ok [(at_ 0 0, at_ 0 9); (at_ 0 10, at_ 0 12); (at_ 0 17, at_ 1 0)]
  /\ get_blocked 50 [ev1; call_at 14] [alice] (at_ 0 0) (at_ 1 0) (9 * HOUR) (17 * HOUR)
     = Ok [(at_ 0 0, at_ 0 9); (at_ 0 10, at_ 0 12); (at_ 0 14, at_ 0 14); (at_ 0 17, at_ 1 0)].
Proof.
  split; [intros e [<-|[]]; apply store_ok; now left|]. split.
  { intros e [<-|[<-|[]]]; (split; [split; [vm_compute; reflexivity|]; eexists; split; [reflexivity|]; vm_compute; intuition congruence|]); vm_compute; intuition congruence. }
  split; [|vm_compute; auto 10].
  intros i [X|[]]. assert (i = "alice"%string) by (unfold alice in X; congruence). subst i.
  assert (T1 : takes_time ev1 "alice") by (split; [reflexivity|]; split; [discriminate|]; eexists; split; [reflexivity|]; split; discriminate).
  assert (T2 : takes_time first_half "alice") by (split; [reflexivity|]; split; [discriminate|]; eexists; split; [reflexivity|]; split; discriminate).
  assert (T3 : takes_time second_half "alice") by (split; [reflexivity|]; split; [discriminate|]; eexists; split; [reflexivity|]; split; discriminate).
  tauto.
Qed.
