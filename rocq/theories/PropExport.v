(** Property theorems C150: what an export says, and when it raises (cal.py 517-572, 974-985). *)
From Verif Require Import Base PyDate DateFacts Recurrent CalTime TimeProofs Event Storage ICal System
  QueryProofs EventProofs SpecProofs PropEvent PropQuery PropNarrow PropICal PropErrors PropCause.
From Coq Require Import ZifyBool.
Ltac Zify.zify_post_hook ::= Z.div_mod_to_equations.
Local Opaque ord2ymd year_of month_of day_of ymd2ord days_in_month is_leap.

(** ** specification *)
(** a time is written as it is, or as the day it is on for an all-day event *)
Definition written_time (allday : bool) (t : Z) (w : option ical_time) : Prop :=
  if allday then exists D, w = Some (IDate D) /\ D * 86400000000 <= t < (D + 1) * 86400000000 else w = Some (IFloat t).

(** the name of a frequency; rules without one are written without *)
Definition frequency (k : kind) (f : option (list string)) : Prop :=
  match k with
  | KDaily => f = Some ["DAILY"%string] | KWeekly => f = Some ["WEEKLY"%string]
  | KMonthly => f = Some ["MONTHLY"%string] | KYearly => f = Some ["YEARLY"%string]
  | KBasic | KNo => f = None
  end.

(** of a rule, its frequency, interval, count and until, and nothing else *)
Definition written_rule (r : option rule) (w : option rrule) : Prop :=
  match r, w with
  | None, None => True
  | Some r, Some w => frequency (r_kind r) (rr_freq w) /\ rr_interval w = Some [r_interval r]
      /\ (forall c, rr_count w = Some c <-> exists n, r_count r = Some n /\ c = [n])
      /\ (forall u, rr_until w = Some u <-> exists d, r_until r = Some d /\ u = [d])
      /\ rr_byday w = None
  | _, _ => False
  end.

(** a text that is not empty *)
Definition written_text (s : string) (w : option string) : Prop := (s = ""%string /\ w = None) \/ (s <> ""%string /\ w = Some s).

(** what is written of every event *)
Definition written_basics (e : event) (v : vevent) : Prop :=
  v_uid v = Some (e_uid e) /\ v_class v = Some (e_access e)
  /\ v_transp v = Some (if e_transparent e then "TRANSPARENT" else "OPAQUE")%string
  /\ written_time (e_allday e) (e_dtstart e) (v_dtstart v)
  /\ (exists d, e_duration e = Some d /\ written_time (e_allday e) (e_dtstart e + d) (v_dtend v))
  /\ v_duration v = None /\ written_rule (e_recurrence e) (v_rrule v)
  /\ v_organizer v = None /\ v_attendees v = [].

(** what is written of an event besides, unless it is private *)
Definition written_details (e : event) (v : vevent) : Prop :=
  v_summary v = Some (e_title e) /\ v_status v = Some (e_status e)
  /\ written_text (e_description e) (v_description v) /\ written_text (e_location e) (v_location v)
  /\ v_categories v = e_categories e
  /\ ((e_document e = None \/ e_document e = Some ""%string) /\ v_attach v = None
      \/ exists d, e_document e = Some d /\ d <> ""%string /\ v_attach v = Some d).

Definition hidden_details (v : vevent) : Prop :=
  v_summary v = Some "Private Event"%string /\ v_status v = None /\ v_description v = None /\ v_location v = None
  /\ v_categories v = [] /\ v_attach v = None.

Definition written (private : bool) (e : event) (v : vevent) : Prop :=
  (~ exists x, no_end (e_dtstart e) (e_duration e) x)
  /\ written_basics e v /\ (if private then hidden_details v else written_details e v).

(** ** one event *)
Lemma end_decides t d : decides (end_of t d) (no_end t d).
Proof.
  unfold end_of, no_end. destruct d as [n|].
  - unfold dt_add. destruct (dt_ok (t + n)) eqn:E.
    + left. eexists. split; [reflexivity|]. intros y [[X _]|(m & X & N & _)]; [discriminate|]. injection X as <-. apply N. unfold dt_ok in E. lia.
    + right. exists OverflowError. split; [reflexivity|]. intros y. split.
      * intros [[X _]|(m & _ & _ & ->)]; [discriminate|reflexivity].
      * intros ->. right. exists n. split; [reflexivity|]. split; [unfold dt_ok in E; lia|reflexivity].
  - right. exists TypeError. split; [reflexivity|]. intros y. split.
    + intros [[_ ->]|(m & X & _)]; [reflexivity|discriminate].
    + intros ->. now left.
Qed.

Lemma written_text_fun s w w' : written_text s w -> written_text s w' -> w = w'.
Proof. intros [[A ->]|[A ->]] [[B ->]|[B ->]]; congruence. Qed.

Lemma truthy_written s : written_text s (truthy s).
Proof. destruct s; [left|right]; split; try reflexivity. discriminate. Qed.

Lemma written_time_fun a t w w' : written_time a t w -> written_time a t w' -> w = w'.
Proof.
  unfold written_time. destruct a; [|congruence]. intros (D & -> & H) (D' & -> & H'). assert (D = D') by lia. now subst.
Qed.

Lemma time_written (a : bool) t : written_time a t (Some (if a then IDate (dt_date t) else IFloat t)).
Proof. destruct a; [|reflexivity]. exists (dt_date t). split; [reflexivity|]. unfold dt_date, DAY. lia. Qed.

Lemma option_by_some {A} (o o' : option A) : (forall x, o = Some x <-> o' = Some x) -> o = o'.
Proof. destruct o as [x|]; intros H; [symmetry; now apply H|]. destruct o' as [y|]; [|reflexivity]. now apply H. Qed.

Lemma written_rule_fun r w w' : written_rule r w -> written_rule r w' -> w = w'.
Proof.
  unfold written_rule. destruct r as [r|], w as [w|], w' as [w'|]; try tauto. intros (F & I & C & U & B) (F' & I' & C' & U' & B'). f_equal.
  assert (FF : rr_freq w = rr_freq w') by (destruct (r_kind r); cbn in F, F'; congruence).
  assert (CC : rr_count w = rr_count w') by (apply option_by_some; intros c; rewrite C, C'; reflexivity).
  assert (UU : rr_until w = rr_until w') by (apply option_by_some; intros c; rewrite U, U'; reflexivity).
  destruct w, w'; cbn in *; congruence.
Qed.

Lemma rule_written r : written_rule r (match r with Some r => Some (export_rule r) | None => None end).
Proof.
  destruct r as [r|]; [|exact I]. cbn [written_rule export_rule rr_freq rr_interval rr_count rr_until rr_byday].
  split; [destruct (r_kind r); reflexivity|]. split; [reflexivity|]. split; [|split; [|reflexivity]].
  - intros c. destruct (r_count r) as [n|]; split; [injection 1 as <-; eauto|intros (m & X & ->); injection X as <-; reflexivity|discriminate|intros (m & X & _); discriminate].
  - intros c. destruct (r_until r) as [n|]; split; [injection 1 as <-; eauto|intros (m & X & ->); injection X as <-; reflexivity|discriminate|intros (m & X & _); discriminate].
Qed.

Lemma written_fun p e v v' : written p e v -> written p e v' -> v = v'.
Proof.
  intros (_ & (U & C & T & S & (d & D & E) & DU & R & O & A) & B) (_ & (U' & C' & T' & S' & (d' & D' & E') & DU' & R' & O' & A') & B').
  assert (d' = d) by congruence. subst d'.
  pose proof (written_time_fun _ _ _ _ S S') as S1. pose proof (written_time_fun _ _ _ _ E E') as E1. pose proof (written_rule_fun _ _ _ R R') as R1.
  assert (X : v_summary v = v_summary v' /\ v_status v = v_status v' /\ v_description v = v_description v' /\ v_location v = v_location v'
    /\ v_categories v = v_categories v' /\ v_attach v = v_attach v').
  { destruct p.
    - destruct B as (-> & -> & -> & -> & -> & ->), B' as (-> & -> & -> & -> & -> & ->). repeat split.
    - destruct B as (-> & -> & B1 & B2 & -> & B3), B' as (-> & -> & B1' & B2' & -> & B3').
      rewrite (written_text_fun _ _ _ B1 B1'), (written_text_fun _ _ _ B2 B2'). repeat split.
      destruct B3 as [[[X|X] ->]|(q & X & N & ->)], B3' as [[[X'|X'] ->]|(q' & X' & N' & ->)]; congruence. }
  destruct X as (X1 & X2 & X3 & X4 & X5 & X6). destruct v, v'. cbn in *. subst.
  repeat match goal with H : ?a = _ |- _ => is_var a; subst a end. reflexivity.
Qed.

Theorem C150_event private e :
  (forall v, export_event private e = Ok v <-> written private e v)
  /\ (forall x, export_event private e = Raise x <-> no_end (e_dtstart e) (e_duration e) x).
Proof.
  pose proof (end_decides (e_dtstart e) (e_duration e)) as D.
  assert (W : forall y, end_of (e_dtstart e) (e_duration e) = Ok y -> exists v, export_event private e = Ok v /\ written private e v).
  { intros y E. unfold export_event. rewrite E. cbn [rbind]. eexists. split; [reflexivity|]. unfold written. split.
    - intros (x & X). apply (decides_iff _ _ _ D) in X. congruence.
    - unfold end_of in E. destruct (e_duration e) as [d|] eqn:ED; [|discriminate]. unfold dt_add in E. destruct (dt_ok _) in E; [|discriminate]. injection E as <-.
      destruct private; (split; [unfold written_basics; rewrite ED; cbn [v_uid v_class v_transp v_dtstart v_dtend v_duration v_rrule v_organizer v_attendees];
        repeat (split; [reflexivity|]); (split; [apply time_written|]); (split; [exists d; split; [reflexivity|apply time_written]|]);
        (split; [reflexivity|]); (split; [apply rule_written|]); split; reflexivity|]).
      + repeat split.
      + cbn. repeat (split; [first [reflexivity|apply truthy_written]|]).
        destruct (e_document e) as [q|]; [|left; auto]. destruct q as [|a q]; [left; auto|right]. eexists. split; [reflexivity|]. split; [discriminate|reflexivity]. }
  split.
  - intros v. split.
    + intros E. destruct (end_of (e_dtstart e) (e_duration e)) as [y| |] eqn:EE; [|unfold export_event in E; rewrite EE in E; discriminate..].
      destruct (W y eq_refl) as (v' & E' & WR). congruence.
    + intros WR. destruct D as [(y & EE & _)|(x & EE & Q)].
      * destruct (W y EE) as (v' & E' & WR'). rewrite E'. f_equal. exact (written_fun _ _ _ _ WR' WR).
      * exfalso. destruct WR as [N _]. apply N. exists x. now apply Q.
  - intros x. rewrite <- (decides_iff _ _ x D). unfold export_event. destruct (end_of (e_dtstart e) (e_duration e)); cbn [rbind]; split; congruence.
Qed.
Print Assumptions C150_event.

(** ** a calendar *)
Lemma rmap_raise {A B} (f : A -> res B) x : forall l, (forall a, In a l -> f a <> OutOfFuel) ->
  (rmap f l = Raise x <-> exists l1 a l2, l = l1 ++ a :: l2 /\ f a = Raise x /\ forall b, In b l1 -> exists y, f b = Ok y).
Proof.
  induction l as [|a l IH]; intros T.
  - split; [discriminate|]. intros (l1 & b & l2 & E & _). destruct l1; discriminate.
  - cbn [rmap]. destruct (f a) as [y|z|] eqn:E; cbn [rbind]; [| |destruct (T a (or_introl eq_refl) E)].
    + transitivity (rmap f l = Raise x); [destruct (rmap f l); cbn; split; congruence|]. rewrite IH by (intros b J; apply T; now right). split.
      * intros (l1 & b & l2 & -> & X & N). exists (a :: l1), b, l2. split; [reflexivity|]. split; [exact X|]. intros c [<-|C]; eauto.
      * intros (l1 & b & l2 & EQ & X & N). destruct l1 as [|c l1]; injection EQ as <- ->; [congruence|]. exists l1, b, l2.
        split; [reflexivity|]. split; [exact X|]. intros c C. apply N. now right.
    + split.
      * intros X. injection X as ->. exists [], a, l. split; [reflexivity|]. split; [exact E|]. intros b [].
      * intros (l1 & b & l2 & EQ & X & N). destruct l1 as [|c l1]; injection EQ as <- ->; [congruence|].
        destruct (N a (or_introl eq_refl)) as (y & Y). congruence.
Qed.

Lemma export_fuel private e : export_event private e <> OutOfFuel.
Proof.
  unfold export_event. destruct (end_decides (e_dtstart e) (e_duration e)) as [(y & -> & _)|(x & -> & _)]; discriminate.
Qed.

(** the components are the events listed, in that order *)
Theorem C150_calendar s c p cr vs : export_cal s c p cr = Ok vs <->
  exists evs, cal_events s c p cr = Ok evs /\ Forall2 (written false) evs vs.
Proof.
  unfold export_cal. destruct (cal_events s c p cr) as [evs| |]; cbn [rbind].
  - split.
    + intros E. exists evs. split; [reflexivity|]. apply rmap_forall2 in E. revert E. induction 1; constructor; [now apply C150_event|assumption].
    + intros (l & E & F). injection E as <-. induction F as [|e v evs vs W F IH]; [reflexivity|]. cbn [rmap].
      apply C150_event in W. rewrite W, IH. reflexivity.
  - split; [discriminate|]. intros (l & E & _). discriminate.
  - split; [discriminate|]. intros (l & E & _). discriminate.
Qed.
Print Assumptions C150_calendar.

(** it raises if listing does; and, only for a period without a begin, if one of
    the events has no end *)
Theorem C150_raises s c p cr x : export_cal s c p cr = Raise x <->
  cal_events s c p cr = Raise x
  \/ fst p = None /\ exists evs e, cal_events s c p cr = Ok evs /\ no_end (e_dtstart e) (e_duration e) x
     /\ first_of evs e (fun e => exists y, no_end (e_dtstart e) (e_duration e) y).
Proof.
  assert (BEGIN : forall evs, cal_events s c p cr = Ok evs -> fst p <> None -> forall e, In e evs -> ~ exists y, no_end (e_dtstart e) (e_duration e) y).
  { intros evs E B e I. destruct p as [[a|] b]; [|now destruct B]. apply (in_period_fine _ _ a b).
    unfold cal_events, calendar_events, get_events in E. destruct (cal_attendees s c); try discriminate. cbn [rbind] in E.
    destruct (matching_events _ _) as [m| |]; try discriminate. cbn [rbind] in E. revert evs E I. clear. induction m as [|e0 m IH]; intros evs E I.
    - cbn in E. injection E as <-. destruct I.
    - cbn [rfilter] in E. destruct (in_period (e_dtstart e0) (e_duration e0) (Some a, b)) as [q| |] eqn:Q; try discriminate. cbn [rbind] in E.
      destruct (rfilter _ m) as [l| |] eqn:R; try discriminate. cbn [rbind] in E. injection E as <-.
      destruct q; [destruct I as [<-|I]; [eauto|]|]; exact (IH l eq_refl I). }
  unfold export_cal. destruct (cal_events s c p cr) as [evs|y|]; cbn [rbind].
  - rewrite rmap_raise by (intros; apply export_fuel). split.
    + intros (l1 & e & l2 & -> & X & N). right. apply C150_event in X. split.
      * destruct (fst p) eqn:F; [|reflexivity]. exfalso. apply (BEGIN _ eq_refl ltac:(discriminate) e); [apply in_or_app; right; now left|eauto].
      * exists (l1 ++ e :: l2), e. split; [reflexivity|]. split; [exact X|]. exists l1, l2. split; [reflexivity|]. split; [eauto|].
        intros b B (z & Z). destruct (N b B) as (v & V). apply C150_event in V. destruct V as [V _]. apply V. eauto.
    + intros [X|(_ & l & e & E & X & l1 & l2 & -> & _ & N)]; [discriminate|]. injection E as ->. exists l1, e, l2. split; [reflexivity|].
      split; [now apply C150_event|]. intros b B. destruct (export_event false b) as [v|z|] eqn:V; [eauto| |destruct (export_fuel _ _ V)].
      apply C150_event in V. exfalso. apply (N b B). eauto.
  - split; [intros X; left; congruence|]. intros [X|(_ & l & e & E & _)]; [congruence|discriminate].
  - split; [discriminate|]. intros [X|(_ & l & e & E & _)]; discriminate.
Qed.
Print Assumptions C150_raises.

(** an all-day event, a private one, and one without a length that only a period
    without a begin reaches *)
Definition x_fair : event := mkEvent "u1" (at_ 0 9) (Some (DAY + HOUR)) "fair" "" "hall" "CONFIRMED"
  (Some (mkRule KWeekly 2 (Some 5) None [VDate 3] [1; 2] "monthday")) true ["x"; "y"]%string true "PUBLIC" (Some ""%string) (Some "ann"%string)
  [("ann", "ACCEPTED")]%string [("ann", "REQ-PARTICIPANT")]%string.
Definition x_secret : event := mkEvent "u2" (at_ 1 9) (Some HOUR) "secret" "very" "" "CONFIRMED"
  None false ["x"]%string false "PRIVATE" (Some "doc"%string) None [("ann", "ACCEPTED")]%string [("ann", "REQ-PARTICIPANT")]%string.
Definition x_endless : event := mkEvent "u3" (at_ 1 9) None "talk" "" "" "CONFIRMED"
  None false [] false "PUBLIC" None None [("ann", "ACCEPTED")]%string [("ann", "REQ-PARTICIPANT")]%string.
Definition x_shop (l : list event) : system :=
  mkSys l (List.combine (map e_uid l) (seq 0 (List.length l))) [("ann", ("Ann", "INDIVIDUAL"))]%string [[("ann"%string, tt)]].
Example C150_case :
  (exists v1 v2, export_cal (x_shop [x_fair; x_secret]) 0 (None, None) None = Ok [v1; v2]
     /\ v_dtstart v1 = Some (IDate (dt_date (at_ 0 0))) /\ v_dtend v1 = Some (IDate (dt_date (at_ 1 0)))
     /\ v_rrule v1 = Some (mkRR (Some ["WEEKLY"%string]) (Some [2]) (Some [5]) None None)
     /\ v_location v1 = Some "hall"%string /\ v_description v1 = None /\ v_attach v1 = None /\ v_attach v2 = Some "doc"%string
     /\ v_dtend v2 = Some (IFloat (at_ 1 10)))
  /\ (exists v, export_event true x_secret = Ok v /\ v_summary v = Some "Private Event"%string /\ v_class v = Some "PRIVATE"%string /\ v_attach v = None)
  /\ export_cal (x_shop [x_fair; x_endless; x_secret]) 0 (None, None) None = Raise TypeError
  /\ (exists evs, cal_events (x_shop [x_fair; x_endless; x_secret]) 0 (None, None) None = Ok evs /\ List.length evs = 3%nat)
  /\ export_cal (x_shop [x_fair; x_endless; x_secret]) 0 (Some (at_ 0 0), None) None = Raise TypeError
  /\ cal_events (x_shop [x_fair; x_endless; x_secret]) 0 (Some (at_ 0 0), None) None = Raise TypeError
  /\ no_end (e_dtstart x_endless) (e_duration x_endless) TypeError.
Proof.
  split; [eexists; eexists; split; [vm_compute; reflexivity|]; repeat split; vm_compute; reflexivity|].
  split; [eexists; split; [vm_compute; reflexivity|]; repeat split; vm_compute; reflexivity|].
  split; [vm_compute; reflexivity|]. split; [eexists; split; vm_compute; reflexivity|].
  split; [vm_compute; reflexivity|]. split; [vm_compute; reflexivity|]. left. split; reflexivity.
Qed.
