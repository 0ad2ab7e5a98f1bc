(** Property theorems C166: working hours only select. *)
From Verif Require Import Base PyDate DateFacts Recurrent SpecRecur RecurProofs RecurMisc Util UtilProofs
  CalTime TimeProofs Event Storage QueryProofs BlockProofs PropQuery PropFree PropSlot.
From Coq Require Import ZifyBool.
Ltac Zify.zify_post_hook ::= Z.div_mod_to_equations.
Local Opaque ord2ymd year_of month_of day_of ymd2ord days_in_month is_leap.

(** ** Specification *)
(** the time of day is in the working hours *)
Definition in_hours (tb te t : Z) : Prop := tb <= t mod DAY < te.
(** the instant is in one of the periods *)
Definition offered (l : list (Z * Z)) (t : Z) : Prop := exists s e, In (s, e) l /\ s <= t < e.
(** both calls answer, or both fail in the same way *)
Definition alike {A} (x y : res A) : Prop :=
  match x, y with Ok _, Ok _ | OutOfFuel, OutOfFuel => True | Raise a, Raise b => a = b | _, _ => False end.

(** ** Proofs *)
Lemma alike_refl {A} (x : res A) : alike x x.
Proof. now destruct x. Qed.
Lemma alike_bind {A B} (x y : res A) (f g : A -> res B) : alike x y -> (forall a b, alike (f a) (g b)) -> alike (rbind x f) (rbind y g).
Proof. destruct x, y; cbn; intros H K; try contradiction; auto. Qed.
Lemma alike_rconcat {A B} (f g : A -> res (list B)) l : (forall a, alike (f a) (g a)) -> alike (rconcat_map f l) (rconcat_map g l).
Proof.
  intros H. induction l as [|a l IH]; [exact I|]. cbn [rconcat_map]. apply alike_bind; [apply H|]. intros ? ?. apply alike_bind; [exact IH|]. intros ? ?. exact I.
Qed.
Lemma night_alike tb te tb' te' n : forall d e, alike (night_blocks n tb te d e) (night_blocks n tb' te' d e).
Proof.
  induction n as [|n IH]; intros d e; cbn [night_blocks]; [exact I|]. destruct (d <=? e); [|exact I]. destruct (date_add d 1); cbn [rbind]; [|reflexivity|exact I].
  apply alike_bind; [apply IH|]. intros ? ?. exact I.
Qed.

(** whether there is an answer does not depend on the hours *)
Theorem C166_answered : forall F evs atts begins ends tb te tb' te',
  alike (get_blocked F evs atts begins ends tb te) (get_blocked F evs atts begins ends tb' te')
  /\ forall m m', alike (get_free F evs atts begins ends tb te m) (get_free F evs atts begins ends tb' te' m').
Proof.
  intros F evs atts b e tb te tb' te'.
  assert (B : alike (get_blocked F evs atts b e tb te) (get_blocked F evs atts b e tb' te')).
  { unfold get_blocked. apply alike_bind.
    - apply alike_rconcat. intros a. destruct (get_occurrences_segmented _ _ _ _) as [occs| |]; cbn [rbind]; [|reflexivity|exact I].
      apply alike_rconcat. intros o. unfold blocked_of. destruct (blocks a (o_original o)) as [k| |]; cbn [rbind]; [|reflexivity|exact I].
      destruct (negb k); [exact I|]. destruct (end_of (o_dtstart o) (o_duration o)) as [z| |]; cbn [rbind]; [|reflexivity|exact I].
      destruct (z <? b); [exact I|]. destruct (e <=? o_dtstart o); exact I.
    - intros x y. destruct (if dt_time e =? 0 then _ else _) as [z| |]; cbn [rbind]; [|reflexivity|exact I].
      apply alike_bind; [apply night_alike|]. intros ? ?. exact I. }
  split; [exact B|]. intros m m'. unfold get_free. apply alike_bind; [exact B|]. intros x y. exact I.
Qed.

(** restricting the hours of one answer or of the other comes to the same *)
Theorem C166_blocked : forall F evs atts begins ends tb te tb' te' l l',
  evs_ok evs -> dt_ok begins = true -> dt_ok ends = true -> 0 <= tb < DAY /\ 0 <= te < DAY -> 0 <= tb' < DAY /\ 0 <= te' < DAY ->
  get_blocked F evs atts begins ends tb te = Ok l -> get_blocked F evs atts begins ends tb' te' = Ok l' ->
  forall t, begins <= t < ends -> in_hours tb te t -> in_hours tb' te' t -> (offered l t <-> offered l' t).
Proof.
  intros F evs atts b e tb te tb' te' l l' OK OB OE W W' E E' t T H H'.
  pose proof (get_blocked_exact _ _ _ _ _ _ _ _ OK OB OE W E t T) as X. pose proof (get_blocked_exact _ _ _ _ _ _ _ _ OK OB OE W' E' t T) as X'.
  unfold covers in *. unfold offered. rewrite X, X'. unfold outside, dt_time, in_hours in *. split; (intros [O|O]; [lia|now right]).
Qed.

Theorem C166_free : forall F evs atts begins ends tb te tb' te' l l',
  evs_ok evs -> dt_ok begins = true -> dt_ok ends = true -> begins < ends -> 0 <= tb < DAY /\ 0 <= te < DAY -> 0 <= tb' < DAY /\ 0 <= te' < DAY ->
  get_free F evs atts begins ends tb te None = Ok l -> get_free F evs atts begins ends tb' te' None = Ok l' ->
  forall t, begins <= t < ends -> (offered l t /\ in_hours tb' te' t <-> offered l' t /\ in_hours tb te t).
Proof.
  intros F evs atts b e tb te tb' te' l l' OK OB OE BE W W' E E' t T.
  pose proof (get_free_covers _ _ _ _ _ _ _ _ OK OB OE BE W E t T) as X. pose proof (get_free_covers _ _ _ _ _ _ _ _ OK OB OE BE W' E' t T) as X'.
  unfold covers in *. unfold offered. rewrite X, X'. unfold outside, dt_time, in_hours in *.
  split; intros [[N B] H]; (split; [split; [lia|exact B]|lia]).
Qed.

(** the morning and the afternoon together are the day *)
Theorem C166_halves : forall F evs atts begins ends tb noon te l1 l2 l,
  evs_ok evs -> dt_ok begins = true -> dt_ok ends = true -> begins < ends -> 0 <= tb -> tb <= noon <= te -> te < DAY ->
  get_free F evs atts begins ends tb noon None = Ok l1 -> get_free F evs atts begins ends noon te None = Ok l2 ->
  get_free F evs atts begins ends tb te None = Ok l ->
  forall t, begins <= t < ends -> (offered l t <-> offered l1 t \/ offered l2 t) /\ ~ (offered l1 t /\ offered l2 t).
Proof.
  intros F evs atts b e tb n te l1 l2 l OK OB OE BE W1 W2 W3 E1 E2 E t T.
  pose proof (get_free_covers _ _ _ _ _ _ _ _ OK OB OE BE (ltac:(split; lia) : window_ok tb n) E1 t T) as X1.
  pose proof (get_free_covers _ _ _ _ _ _ _ _ OK OB OE BE (ltac:(split; lia) : window_ok n te) E2 t T) as X2.
  pose proof (get_free_covers _ _ _ _ _ _ _ _ OK OB OE BE (ltac:(split; lia) : window_ok tb te) E t T) as X.
  unfold covers in *. unfold offered. rewrite X, X1, X2. unfold outside. split; [split|].
  - intros [N B]. destruct (Z_lt_le_dec (dt_time t) n); [left|right]; (split; [lia|exact B]).
  - intros [[N B]|[N B]]; (split; [lia|exact B]).
  - intros [[N1 _] [N2 _]]. lia.
Qed.

(** in longer hours every meeting still fits, and the first time found is not later *)
Theorem C166_longer : forall F evs atts begins ends tb te tb' te' m m' l l' d,
  evs_ok evs -> dt_ok begins = true -> dt_ok ends = true -> begins < ends -> 0 <= tb' -> tb' <= tb -> tb < DAY -> 0 <= te -> te <= te' -> te' < DAY ->
  get_free F evs atts begins ends tb te m = Ok l -> get_free F evs atts begins ends tb' te' m' = Ok l' ->
  0 < d -> (forall x, m = Some x \/ m' = Some x -> x <= d) ->
  (forall a, begins <= a -> a + d <= ends -> (exists x y, In (x, y) l /\ x <= a /\ a + d <= y) -> exists x y, In (x, y) l' /\ x <= a /\ a + d <= y)
  /\ (forall a, first_fit begins ends d l = Some a -> exists a', first_fit begins ends d l' = Some a' /\ a' <= a).
Proof.
  intros F evs atts b e tb te tb' te' m m' l l' d OK OB OE BE H1 H2 H3 H4 H5 H6 E E' D M.
  assert (W : window_ok tb te) by (split; lia). assert (W' : window_ok tb' te') by (split; lia).
  assert (S : forall a, slot evs atts b e tb te a d -> slot evs atts b e tb' te' a d).
  { intros a (S1 & S2 & S3 & S4). split; [exact S1|]. split; [exact S2|]. split; [|exact S4]. intros t T. destruct (S3 t T) as [Q B]. split; [lia|exact B]. }
  split.
  - intros a A1 A2 X. apply (C145_fits_iff F evs atts b e tb' te' m' l' a d OK OB OE BE W' E' D (fun x Hx => M x (or_intror Hx)) A1 A2), S.
    now apply (C145_fits_iff F evs atts b e tb te m l a d OK OB OE BE W E D (fun x Hx => M x (or_introl Hx)) A1 A2).
  - intros a A. pose proof (C145_earliest F evs atts b e tb te m l d OK OB OE BE W E D (fun x Hx => M x (or_introl Hx))) as X.
    pose proof (C145_earliest F evs atts b e tb' te' m' l' d OK OB OE BE W' E' D (fun x Hx => M x (or_intror Hx))) as X'.
    rewrite A in X. destruct X as [SL _]. apply S in SL. destruct (first_fit b e d l') as [a'|]; [exists a'; split; [reflexivity|now apply X']|exfalso; exact (X' _ SL)].
Qed.

(** alice and bob (see C145): two hours in office hours are found at noon, in long ones at seven *)
Example C166_case :
  evs_ok three_events
  /\ (exists l, get_free 50 three_events both (at_ 0 6) (at_ 1 16) (9 * HOUR) (17 * HOUR) (Some (2 * HOUR)) = Ok l
      /\ first_fit (at_ 0 6) (at_ 1 16) (2 * HOUR) l = Some (at_ 0 12))
  /\ (exists l, get_free 50 three_events both (at_ 0 6) (at_ 1 16) (7 * HOUR) (20 * HOUR) None = Ok l
      /\ first_fit (at_ 0 6) (at_ 1 16) (2 * HOUR) l = Some (at_ 0 7) /\ In (at_ 0 12, at_ 0 14) l)
  /\ (exists l1 l2, get_free 50 three_events both (at_ 0 6) (at_ 1 16) (9 * HOUR) (13 * HOUR) None = Ok l1
      /\ get_free 50 three_events both (at_ 0 6) (at_ 1 16) (13 * HOUR) (17 * HOUR) None = Ok l2
      /\ In (at_ 0 12, at_ 0 13) l1 /\ In (at_ 0 13, at_ 0 14) l2)
  /\ (exists l, get_blocked 50 three_events both (at_ 0 6) (at_ 1 16) (9 * HOUR) (17 * HOUR) = Ok l)
  /\ get_blocked 0 [q_event "x" (at_ 0 9) HOUR (Some (mkRule KDaily 1 None None [] [] "monthday")) "CONFIRMED" false [("alice", "ACCEPTED")]]%string
       both (at_ 0 6) (at_ 1 16) (9 * HOUR) (17 * HOUR) = OutOfFuel.
Proof.
  split; [exact (proj1 C145_case)|].
  split; [eexists; split; [vm_compute; reflexivity|vm_compute; reflexivity]|].
  split; [eexists; split; [vm_compute; reflexivity|split; [vm_compute; reflexivity|vm_compute; auto 10]]|].
  split; [eexists; eexists; split; [vm_compute; reflexivity|split; [vm_compute; reflexivity|split; vm_compute; auto 10]]|].
  split; [eexists; vm_compute; reflexivity|vm_compute; reflexivity].
Qed.

Print Assumptions C166_answered.
Print Assumptions C166_blocked.
Print Assumptions C166_free.
Print Assumptions C166_halves.
Print Assumptions C166_longer.
