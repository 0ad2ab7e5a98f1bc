(** Property theorems C135: working hours that pass midnight. *)
From Verif Require Import Base PyDate DateFacts Recurrent SpecRecur RecurProofs RecurMisc Util UtilProofs
  CalTime TimeProofs Event Storage QueryProofs BlockProofs PropQuery PropFree.
From Coq Require Import ZifyBool.
Ltac Zify.zify_post_hook ::= Z.div_mod_to_equations.
Local Opaque ord2ymd year_of month_of day_of ymd2ord days_in_month is_leap.

(** the wanted hours of a window that is left earlier than it is entered: from
    [tb] to midnight and from midnight to [te] *)
Definition night_hours (tb te t : Z) : Prop := tb <= t mod DAY \/ t mod DAY < te.

(** one block of the whole days, whatever is stored *)
Theorem C135_one_block : forall F evs atts begins ends tb te l,
  evs_ok evs -> dt_ok begins = true -> dt_ok ends = true -> begins < ends ->
  0 <= tb < DAY -> 0 <= te < tb ->
  get_blocked F evs atts begins ends tb te = Ok l ->
  l = [(begins / DAY * DAY, (ends + DAY - 1) / DAY * DAY)].
Proof.
  intros F evs atts begins ends tb te l OK OB OE BE W1 W2 E.
  rewrite (blocked_overnight F evs atts begins ends tb te l OK OB OE BE ltac:(unfold window_ok; lia) ltac:(lia) E).
  unfold combine, dt_date. now rewrite !Z.add_0_r.
Qed.
Print Assumptions C135_one_block.

(** so nothing is offered: no period at all when the asked one ends at midnight,
    otherwise one that ends before it starts, which a minimal duration removes *)
Theorem C135_nothing_free : forall F evs atts begins ends tb te l,
  evs_ok evs -> dt_ok begins = true -> dt_ok ends = true -> begins < ends ->
  0 <= tb < DAY -> 0 <= te < tb ->
  get_free F evs atts begins ends tb te None = Ok l ->
  l = (if ends mod DAY =? 0 then [] else [((ends + DAY - 1) / DAY * DAY, Z.min ends (ends / DAY * DAY + te))])
  /\ ~ exists s e t, In (s, e) l /\ s <= t < e.
Proof.
  intros F evs atts begins ends tb te l OK OB OE BE W1 W2 E.
  assert (W : window_ok tb te) by (unfold window_ok; lia).
  destruct (free_shape _ _ _ _ _ _ _ _ OK OB OE BE W E) as (s1 & e1 & r & BL & EQ & _).
  pose proof (blocked_overnight _ _ _ _ _ _ _ _ OK OB OE BE W ltac:(lia) BL) as X. injection X as _ _ ->.
  unfold front_artefact, back_artefact, midnight_after, midnight_before in EQ.
  replace (tb =? 0) with false in EQ by lia. cbn [gaps app andb] in EQ. split; [exact EQ|].
  intros (s & e & t & H & T). rewrite EQ in H. destruct (ends mod DAY =? 0) eqn:Z0; [destruct H|].
  destruct H as [H|[]]. injection H as <- <-. unfold DAY in *. lia.
Qed.
Print Assumptions C135_nothing_free.

Theorem C135_nothing_long_enough : forall F evs atts begins ends tb te m l,
  evs_ok evs -> dt_ok begins = true -> dt_ok ends = true -> begins < ends ->
  0 <= tb < DAY -> 0 <= te < tb -> 0 <= m ->
  get_free F evs atts begins ends tb te (Some m) = Ok l -> l = [].
Proof.
  intros F evs atts begins ends tb te m l OK OB OE BE W1 W2 M E. rewrite get_free_minimal in E.
  destruct (get_free F evs atts begins ends tb te None) as [l0| |] eqn:E0; try discriminate. injection E as <-.
  destruct (C135_nothing_free _ _ _ _ _ _ _ _ OK OB OE BE W1 W2 E0) as [-> _].
  destruct (ends mod DAY =? 0) eqn:Z0; [reflexivity|]. cbn [filter fst snd].
  destruct (m <=? _) eqn:Q; [|reflexivity]. unfold DAY in *. lia.
Qed.
Print Assumptions C135_nothing_long_enough.

(** these queries are answered, not refused *)
Theorem C135_answered : forall evs atts begins ends tb te m, evs_ok evs -> ~ In None atts ->
  dt_ok begins = true -> dt_ok ends = true -> begins < MAXORD * DAY -> ends < MAXORD * DAY -> begins < ends ->
  0 <= tb < DAY -> 0 <= te < tb -> (forall e, In e evs -> expand_room e ends) ->
  exists N, forall F, (N <= F)%nat -> exists l, get_free F evs atts begins ends tb te m = Ok l.
Proof.
  intros evs atts begins ends tb te m OK NA OB OE LB LE BE W1 W2 R.
  destruct (get_blocked_total evs atts begins ends tb te OK NA OB OE LB LE BE ltac:(unfold window_ok; lia) R) as [N H].
  exists N. intros F HF. destruct (H F HF) as [l E]. unfold get_free. rewrite E. cbn [rbind]. eexists. reflexivity.
Qed.
Print Assumptions C135_answered.

(** How to ask instead: once for the evening and once for the morning.  The two
    answers together give the wanted hours that nobody's events take, except the
    last microsecond of the day, which no window contains. *)
Theorem C135_two_questions : forall F evs atts begins ends tb te l1 l2,
  evs_ok evs -> dt_ok begins = true -> dt_ok ends = true -> begins < ends ->
  0 <= tb < DAY -> 0 <= te < tb ->
  get_free F evs atts begins ends tb (DAY - 1) None = Ok l1 ->
  get_free F evs atts begins ends 0 te None = Ok l2 ->
  forall t, begins <= t < ends ->
  ((exists s e, In (s, e) (l1 ++ l2) /\ s <= t < e) <->
   night_hours tb te t /\ t mod DAY <> DAY - 1 /\ ~ busy evs atts t).
Proof.
  intros F evs atts begins ends tb te l1 l2 OK OB OE BE W1 W2 E1 E2 t T.
  change (exists s e, In (s, e) (l1 ++ l2) /\ s <= t < e) with (covers (l1 ++ l2) t). rewrite covers_app.
  assert (V1 : window_ok tb (DAY - 1)) by (unfold window_ok, DAY in *; lia).
  assert (V2 : window_ok 0 te) by (unfold window_ok, DAY in *; lia).
  rewrite (get_free_covers _ _ _ _ _ _ _ _ OK OB OE BE V1 E1 t T).
  rewrite (get_free_covers _ _ _ _ _ _ _ _ OK OB OE BE V2 E2 t T).
  unfold outside, night_hours, dt_time. pose proof (Z.mod_pos_bound t DAY ltac:(unfold DAY; lia)) as MB.
  remember (t mod DAY) as x. clear - MB W1 W2. split.
  - intros [[A B]|[A B]]; (split; [|split; [|exact B]]); unfold DAY in *; lia.
  - intros ([A|A] & N & B); [left|right]; (split; [|exact B]); unfold DAY in *; lia.
Qed.
Print Assumptions C135_two_questions.

(** nobody has anything to do, and yet from Monday to Wednesday nothing is free
    from 22:00 to 6:00, nor from 22:00 to midnight; asked twice, the nights are *)
Example C135_ex : evs_ok [] /\ evs_ok store
  /\ get_blocked 50 [] [alice] (at_ 0 10) (at_ 2 0) (22 * HOUR) (6 * HOUR) = Ok [(at_ 0 0, at_ 2 0)]
  /\ get_free 50 [] [alice] (at_ 0 10) (at_ 2 0) (22 * HOUR) (6 * HOUR) None = Ok []
  /\ get_free 50 [] [alice] (at_ 0 10) (at_ 2 0) (22 * HOUR) 0 None = Ok []
  /\ get_free 50 store [alice; bob] (at_ 0 10) (at_ 1 12) (22 * HOUR) (6 * HOUR) None = Ok [(at_ 2 0, at_ 1 6)]
  /\ get_free 50 store [alice; bob] (at_ 0 10) (at_ 1 12) (22 * HOUR) (6 * HOUR) (Some HOUR) = Ok []
  /\ get_free 50 store [alice; bob] (at_ 0 0) (at_ 2 0) (22 * HOUR) (DAY - 1) None
       = Ok [(at_ 0 22, at_ 1 0 - 1); (at_ 1 22, at_ 2 0 - 1)]
  /\ get_free 50 store [alice; bob] (at_ 0 0) (at_ 2 0) 0 (6 * HOUR) None
       = Ok [(at_ 0 0, at_ 0 6); (at_ 1 0, at_ 1 6)].
Proof.
  split; [intros e []|]. split; [exact (proj1 C26_case)|]. do 6 (split; [vm_compute; reflexivity|]). vm_compute. reflexivity.
Qed.
