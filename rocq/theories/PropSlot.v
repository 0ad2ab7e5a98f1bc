(** Property theorems C145: looking for a time for a meeting. *)
From Verif Require Import Base PyDate DateFacts Recurrent SpecRecur RecurProofs RecurMisc Util UtilProofs
  CalTime TimeProofs Event Storage QueryProofs BlockProofs PropQuery PropFree.
From Coq Require Import ZifyBool.
Ltac Zify.zify_post_hook ::= Z.div_mod_to_equations.
Local Opaque ord2ymd year_of month_of day_of ymd2ord days_in_month is_leap.

(** * C145 *)
(** a time for a meeting of length [d] that starts at [a]: inside the period and the
    working hours, nobody asked for has anything else, and no reminder (an event of no
    length that takes time) interrupts it *)
Definition slot (evs : list event) (atts : list attendee) (begins ends tb te a d : Z) : Prop :=
  begins <= a /\ a + d <= ends
  /\ (forall t, a <= t < a + d -> tb <= t mod DAY < te /\ ~ busy evs atts t)
  /\ (forall t, a < t < a + d -> ~ reminder_at evs atts t).

Lemma ordered_all l x : Forall (fun p : Z * Z => fst p < snd p) (x :: l) -> ordered (x :: l) -> forall y, In y l -> snd x <= fst y.
Proof.
  revert x. induction l as [|z l IH]; intros x F O y Y; [destruct Y|]. destruct O as [O1 O2]. destruct Y as [<-|Y]; [exact O1|].
  inversion F as [|p q F1 F2]. subst p q. specialize (IH z F2 O2 y Y). inversion F2 as [|p q F3 F4]. subst p q. lia.
Qed.

Lemma ordered_same l : Forall (fun p : Z * Z => fst p < snd p) l -> ordered l ->
  forall p q t, In p l -> In q l -> fst p <= t < snd p -> fst q <= t < snd q -> p = q.
Proof.
  induction l as [|x l IH]; intros F O p q t P Q TP TQ; [destruct P|].
  pose proof (ordered_all l x F O) as A. inversion F as [|x' l' F1 F2]. subst x' l'. destruct O as [_ O].
  destruct P as [<-|P], Q as [<-|Q]; [reflexivity|specialize (A q Q); lia|specialize (A p P); lia|].
  exact (IH F2 O p q t P Q TP TQ).
Qed.

Lemma back_short ends te p : 0 <= te < DAY -> In p (back_artefact ends te) -> snd p <= fst p.
Proof.
  intros W. unfold back_artefact, midnight_after, midnight_before. destruct (ends mod DAY =? 0) eqn:M; [intros []|].
  intros [<-|[]]. cbn [fst snd]. unfold DAY in *. lia.
Qed.

Lemma front_short begins tb p : In p (front_artefact begins tb) -> snd p <= fst p.
Proof.
  unfold front_artefact, midnight_before. destruct (_ && _); [|intros []]. intros [<-|[]]. cbn [fst snd]. unfold DAY in *. lia.
Qed.

Theorem C145_fits_iff F evs atts begins ends tb te m l a d :
  evs_ok evs -> dt_ok begins = true -> dt_ok ends = true -> begins < ends -> 0 <= tb < DAY /\ 0 <= te < DAY ->
  get_free F evs atts begins ends tb te m = Ok l -> 0 < d -> (forall m', m = Some m' -> m' <= d) ->
  begins <= a -> a + d <= ends ->
  ((exists x y, In (x, y) l /\ x <= a /\ a + d <= y) <-> slot evs atts begins ends tb te a d).
Proof.
  intros OK OB OE BE W E D M BA AE.
  assert (exists l0, get_free F evs atts begins ends tb te None = Ok l0
    /\ forall x y, In (x, y) l0 -> y - x >= d <-> In (x, y) l /\ y - x >= d) as (l0 & E0 & SAME).
  { destruct m as [m|].
    - rewrite C29_minimal_filters in E. destruct (get_free F evs atts begins ends tb te None) as [l0| |] eqn:E0; try discriminate.
      injection E as <-. exists l0. split; [reflexivity|]. intros x y I. rewrite filter_In. cbn [fst snd].
      specialize (M m eq_refl). split; [intros L; repeat split; [exact I|lia|exact L]|tauto].
    - exists l. split; [exact E|]. intros x y I. tauto. }
  destruct (C57_touch_iff F evs atts begins ends tb te l0 OK OB OE BE W E0) as (G & EQ & (NE & ORD & COV) & TOUCH).
  assert (IFF : (exists x y, In (x, y) l /\ x <= a /\ a + d <= y) <-> (exists x y, In (x, y) G /\ x <= a /\ a + d <= y)).
  { split; intros (x & y & I & X & Y).
    - assert (I0 : In (x, y) l0).
      { destruct m as [m|]; [|now assert (l = l0) as <- by congruence].
        rewrite C29_minimal_filters, E0 in E. injection E as <-. apply filter_In in I. tauto. }
      rewrite EQ, !in_app_iff in I0. exists x, y. split; [|lia]. destruct I0 as [I0|[I0|I0]]; [|exact I0|].
      + apply front_short in I0. cbn [fst snd] in I0. lia.
      + apply (back_short _ _ _ (proj2 W)) in I0. cbn [fst snd] in I0. lia.
    - exists x, y. split; [|lia]. apply (SAME x y); [|lia]. rewrite EQ, !in_app_iff. auto. }
  rewrite IFF. clear IFF SAME. rewrite Forall_forall in NE. split.
  - intros (x & y & I & X & Y). split; [exact BA|]. split; [exact AE|]. split.
    + intros t T. destruct (proj1 (COV t)) as (_ & C1 & C2); [exists x, y; split; [exact I|lia]|].
      split; [lia|]. intros B. apply C2. split; [lia|exact B].
    + intros t T R. assert (TT : exists a b, In (a, t) G /\ In (t, b) G).
      { apply TOUCH. repeat split; [exists x, y; split; [exact I|lia]..|lia|lia|exact R]. }
      destruct TT as (_ & b & _ & I2). pose proof (NE _ I2) as L. cbn [fst snd] in L.
      assert (S : (x, y) = (t, b)).
      { apply (ordered_same G (proj2 (Forall_forall _ _) NE) ORD _ _ t I I2); cbn [fst snd]; lia. }
      injection S as -> ->. lia.
  - intros (_ & _ & FR & NR).
    assert (C : forall t, a <= t < a + d -> exists s e, In (s, e) G /\ s <= t < e).
    { intros t T. apply COV. destruct (FR t T) as [W' B]. repeat split.
      - unfold midnight_before, DAY. lia.
      - unfold midnight_after, DAY. lia.
      - lia.
      - tauto. }
    destruct (C a ltac:(lia)) as (x & y & I & T). exists x, y. split; [exact I|]. split; [lia|].
    destruct (Z_le_gt_dec (a + d) y) as [L|L]; [exact L|exfalso].
    destruct (C y ltac:(lia)) as (x' & y' & I' & T').
    apply (NR y ltac:(lia)). apply TOUCH. exists x, y'. split; [exact I|].
    destruct (Z.eq_dec x' y) as [<-|NQ]; [exact I'|exfalso].
    assert (S : (x, y) = (x', y')).
    { pose proof (NE _ I) as L1. cbn [fst snd] in L1.
      apply (ordered_same G (proj2 (Forall_forall _ _) NE) ORD _ _ (y - 1) I I'); cbn [fst snd]; lia. }
    injection S as -> ->. lia.
Qed.
Print Assumptions C145_fits_iff.

(** what a program that looks for the earliest time does with the answer: take the
    first period of which enough lies in the asked period *)
Definition first_fit (begins ends d : Z) (l : list (Z * Z)) : option Z :=
  match find (fun x => Z.max begins (fst x) + d <=? Z.min ends (snd x)) l with
  | Some x => Some (Z.max begins (fst x))
  | None => None
  end.

Lemma find_first {A} (f : A -> bool) l x : find f l = Some x -> exists l1 l2, l = l1 ++ x :: l2 /\ forall y, In y l1 -> f y = false.
Proof.
  induction l as [|z l IH]; [discriminate|]. cbn [find]. destruct (f z) eqn:Z.
  - intros E. injection E as ->. exists [], l. split; [reflexivity|intros y []].
  - intros E. destruct (IH E) as (l1 & l2 & -> & N). exists (z :: l1), l2. split; [reflexivity|]. intros y [<-|Y]; auto.
Qed.

(** the long enough entries of the answer come in the order of time *)
Lemma answer_sorted F evs atts begins ends tb te m l :
  evs_ok evs -> dt_ok begins = true -> dt_ok ends = true -> begins < ends -> 0 <= tb < DAY /\ 0 <= te < DAY ->
  get_free F evs atts begins ends tb te m = Ok l ->
  forall l1 p l2 q, l = l1 ++ p :: l2 -> In q l2 -> fst p < snd p -> fst q < snd q -> snd p <= fst q.
Proof.
  intros OK OB OE BE W E l1 p l2 q EQ Q P1 Q1.
  assert (SUB : exists l0, get_free F evs atts begins ends tb te None = Ok l0 /\ exists f : Z * Z -> bool, l = filter f l0).
  { destruct m as [m|].
    - rewrite C29_minimal_filters in E. destruct (get_free F evs atts begins ends tb te None) as [l0| |]; try discriminate.
      injection E as <-. eauto.
    - exists l. split; [exact E|]. exists (fun _ => true). now rewrite filter_true. }
  destruct SUB as (l0 & E0 & f & EF).
  destruct (C28_free_exact F evs atts begins ends tb te l0 OK OB OE BE W E0) as (G & EQ0 & NE & ORD & _).
  assert (LL : filter (fun x => fst x <? snd x) l = filter f G).
  { rewrite EF. rewrite EQ0, !filter_app.
    assert (SH : forall A, (forall p, In p A -> snd p <= fst p) -> filter (fun x : Z * Z => fst x <? snd x) (filter f A) = []).
    { intros A. induction A as [|x A IH]; intros H; [reflexivity|]. cbn [filter].
      assert (HA : forall p, In p A -> snd p <= fst p) by (intros; apply H; now right). specialize (IH HA).
      destruct (f x); [|exact IH]. cbn [filter]. specialize (H x (or_introl eq_refl)). replace (fst x <? snd x) with false by lia. exact IH. }
    rewrite (SH _ (front_short begins tb)), (SH (back_artefact ends te) (fun p => back_short ends te p (proj2 W))), app_nil_r. cbn [app].
    clear - NE. induction NE as [|x A H _ IH]; [reflexivity|]. cbn [filter]. destruct (f x); [|exact IH].
    cbn [filter]. replace (fst x <? snd x) with true by lia. now rewrite IH. }
  assert (ORD' : forall A, Forall (fun p : Z * Z => fst p < snd p) A -> ordered A -> ordered (filter f A)).
  { induction A as [|x A IH]; intros N O; [exact I|]. pose proof (ordered_all A x N O) as AL.
    inversion N as [|y B N1 N2]. subst y B. destruct O as [_ O]. specialize (IH N2 O). cbn [filter]. destruct (f x); [|exact IH].
    cbn [ordered]. split; [|exact IH]. destruct (filter f A) as [|z B] eqn:FB; [exact I|]. apply AL.
    assert (In z (filter f A)) by (rewrite FB; now left). now apply filter_In in H. }
  specialize (ORD' G NE ORD). rewrite <- LL, EQ, filter_app in ORD'. cbn [filter] in ORD'.
  replace (fst p <? snd p) with true in ORD' by lia.
  assert (APP : forall A B, ordered (A ++ B) -> ordered B).
  { induction A as [|x A IH]; intros B; [auto|]. intros [_ O]. now apply IH. }
  apply APP in ORD'.
  refine (ordered_all _ p _ ORD' q _).
  - constructor; [exact P1|]. apply Forall_forall. intros x X. apply filter_In in X. lia.
  - apply filter_In. split; [exact Q|lia].
Qed.

Theorem C145_earliest F evs atts begins ends tb te m l d :
  evs_ok evs -> dt_ok begins = true -> dt_ok ends = true -> begins < ends -> 0 <= tb < DAY /\ 0 <= te < DAY ->
  get_free F evs atts begins ends tb te m = Ok l -> 0 < d -> (forall m', m = Some m' -> m' <= d) ->
  match first_fit begins ends d l with
  | Some a => slot evs atts begins ends tb te a d /\ forall b, slot evs atts begins ends tb te b d -> a <= b
  | None => forall b, ~ slot evs atts begins ends tb te b d
  end.
Proof.
  intros OK OB OE BE W E D M.
  pose proof (fun a => C145_fits_iff F evs atts begins ends tb te m l a d OK OB OE BE W E D M) as FIT.
  unfold first_fit. destruct (find _ l) as [p|] eqn:FD.
  - destruct (find_first _ _ _ FD) as (l1 & l2 & EQ & NONE). apply find_some in FD as [IN TEST]. split.
    + apply FIT; [lia..|]. exists (fst p), (snd p). rewrite <- surjective_pairing. split; [exact IN|lia].
    + intros b SL. pose proof SL as (B1 & B2 & _). apply FIT in SL as (x & y & I & X & Y); [|lia..].
      assert (T : Z.max begins x + d <=? Z.min ends y = true) by lia.
      rewrite EQ in I. apply in_app_iff in I as [I|[I|I]].
      * specialize (NONE _ I). cbn [fst snd] in NONE. lia.
      * subst p. cbn [fst snd] in *. lia.
      * pose proof (answer_sorted F evs atts begins ends tb te m l OK OB OE BE W E l1 p l2 (x, y) EQ I) as S. cbn [fst snd] in S. lia.
  - intros b SL. pose proof SL as (B1 & B2 & _). apply FIT in SL as (x & y & I & X & Y); [|lia..].
    pose proof (find_none _ _ FD _ I) as N. cbn [fst snd] in N. lia.
Qed.
Print Assumptions C145_earliest.

(** more people, or more events, and the meeting can only be later *)
Theorem C145_later F evs1 evs2 atts1 atts2 begins ends tb te m1 m2 l1 l2 d :
  evs_ok evs1 -> evs_ok evs2 -> incl evs1 evs2 -> incl atts1 atts2 ->
  dt_ok begins = true -> dt_ok ends = true -> begins < ends -> 0 <= tb < DAY /\ 0 <= te < DAY ->
  get_free F evs1 atts1 begins ends tb te m1 = Ok l1 -> get_free F evs2 atts2 begins ends tb te m2 = Ok l2 ->
  0 < d -> (forall m', m1 = Some m' \/ m2 = Some m' -> m' <= d) ->
  forall a2, first_fit begins ends d l2 = Some a2 -> exists a1, first_fit begins ends d l1 = Some a1 /\ a1 <= a2.
Proof.
  intros O1 O2 IE IA OB OE BE W E1 E2 D M a2 A2.
  pose proof (C145_earliest F evs2 atts2 begins ends tb te m2 l2 d O2 OB OE BE W E2 D (fun m' H => M m' (or_intror H))) as X2.
  pose proof (C145_earliest F evs1 atts1 begins ends tb te m1 l1 d O1 OB OE BE W E1 D (fun m' H => M m' (or_introl H))) as X1.
  rewrite A2 in X2. destruct X2 as ((S1 & S2 & S3 & S4) & _).
  assert (SL : slot evs1 atts1 begins ends tb te a2 d).
  { split; [exact S1|]. split; [exact S2|]. split.
    - intros t T. destruct (S3 t T) as [H B]. split; [exact H|]. intros (i & e & H1 & H2 & H3). apply B. exists i, e. auto.
    - intros t T (i & e & H1 & H2 & H3). apply (S4 t T). exists i, e. auto. }
  destruct (first_fit begins ends d l1) as [a1|]; [exists a1; split; [reflexivity|now apply X1]|exfalso; exact (X1 _ SL)].
Qed.
Print Assumptions C145_later.

(** alice is busy from 9:00 to 11:00 and has a reminder at noon, bob is busy from 14:00 to
    15:00: two hours together are possible from 12:00, for bob alone from 9:00, and six hours
    together are not *)
Definition three_events : list event :=
  [q_event "x" (at_ 0 9) (2 * HOUR) None "CONFIRMED" false [("alice", "ACCEPTED")]; q_event "z" (at_ 0 12) 0 None "CONFIRMED" false [("alice", "ACCEPTED")];
   q_event "y" (at_ 0 14) HOUR None "CONFIRMED" false [("bob", "ACCEPTED")]]%string.
Definition both : list attendee := [Some "alice"; Some "bob"]%string.
Example C145_case :
  evs_ok three_events
  /\ (exists l, get_free 50 three_events both (at_ 0 8) (at_ 1 16) (9 * HOUR) (17 * HOUR) (Some (2 * HOUR)) = Ok l
      /\ first_fit (at_ 0 8) (at_ 1 16) (2 * HOUR) l = Some (at_ 0 12))
  /\ (exists l, get_free 50 three_events [Some "bob"%string] (at_ 0 8) (at_ 1 16) (9 * HOUR) (17 * HOUR) None = Ok l
      /\ first_fit (at_ 0 8) (at_ 1 16) (2 * HOUR) l = Some (at_ 0 9))
  /\ (exists l, get_free 50 three_events both (at_ 0 8) (at_ 0 20) (9 * HOUR) (17 * HOUR) (Some (6 * HOUR)) = Ok l
      /\ first_fit (at_ 0 8) (at_ 0 20) (6 * HOUR) l = None)
  /\ slot three_events both (at_ 0 8) (at_ 1 16) (9 * HOUR) (17 * HOUR) (at_ 0 12) (2 * HOUR)
  /\ ~ slot three_events both (at_ 0 8) (at_ 1 16) (9 * HOUR) (17 * HOUR) (at_ 0 11) (2 * HOUR).
Proof.
  assert (OK : evs_ok three_events).
  { intros e [<-|[<-|[<-|[]]]]; (split; [split; [vm_compute; reflexivity|];
      eexists; split; [reflexivity|]; vm_compute; intuition congruence|]); vm_compute; intuition congruence. }
  split; [exact OK|].
  assert (E : exists l, get_free 50 three_events both (at_ 0 8) (at_ 1 16) (9 * HOUR) (17 * HOUR) (Some (2 * HOUR)) = Ok l
      /\ first_fit (at_ 0 8) (at_ 1 16) (2 * HOUR) l = Some (at_ 0 12)).
  { eexists. split; vm_compute; reflexivity. }
  split; [exact E|]. split; [eexists; split; vm_compute; reflexivity|]. split; [eexists; split; vm_compute; reflexivity|].
  destruct E as (l & E & FF).
  pose proof (C145_earliest 50 three_events both (at_ 0 8) (at_ 1 16) (9 * HOUR) (17 * HOUR) (Some (2 * HOUR)) l (2 * HOUR) OK
    eq_refl eq_refl eq_refl) as H.
  assert (W : 0 <= 9 * HOUR < DAY /\ 0 <= 17 * HOUR < DAY) by (vm_compute; intuition congruence).
  assert (D : 0 < 2 * HOUR) by reflexivity.
  specialize (H W E D ltac:(intros m' X; injection X as <-; apply Z.le_refl)). rewrite FF in H. destruct H as [S M]. split; [exact S|].
  intros X. apply M in X. revert X. vm_compute. congruence.
Qed.
