(** Property theorems C167: the periods made by Period. *)
From Verif Require Import Base PyDate DateFacts Recurrent Util UtilProofs
  CalTime TimeProofs Event Storage QueryProofs PropQuery Periods.

(** ** Specification *)
(** what Period(dtstart, minutes) should mean: from dtstart to that many minutes later *)
Definition meant (dtstart minutes : Z) : bounds := (BTime dtstart, BTime (dtstart + minutes * MINUTE)).
(** a bound that is neither a datetime nor None *)
Definition odd_bound (b : bound) : Prop := match b with BLength _ | BDay _ => True | _ => False end.
Definition odd (p : bounds) : Prop := odd_bound (fst p) \/ odd_bound (snd p).
(** a bound of the usual kind, as the other files have it *)
Definition usual (b : option Z) : bound := match b with Some t => BTime t | None => BNone end.
(** the same bound, or two bounds of other kinds *)
Definition same_or_odd (a b : bound) : Prop := a = b \/ odd_bound a /\ odd_bound b.

(** ** Proofs *)
Lemma in_usual t d p : in_period_any t d (usual (fst p), usual (snd p)) = in_period t d p.
Proof. destruct p as [[b|] [e|]]; reflexivity. Qed.
Lemma rconcat_ext_all {A B} (f g : A -> res (list B)) l : (forall a, f a = g a) -> rconcat_map f l = rconcat_map g l.
Proof. intros H. induction l as [|a l IH]; [reflexivity|]. cbn [rconcat_map]. now rewrite H, IH. Qed.
Lemma rfilter_ext_all {A} (f g : A -> res bool) l : (forall a, f a = g a) -> rfilter f l = rfilter g l.
Proof. intros H. induction l as [|a l IH]; [reflexivity|]. cbn [rfilter]. now rewrite H, IH. Qed.

(** with periods of the usual kind nothing is new *)
Theorem C167_usual : forall F evs p c,
  events_any evs (usual (fst p), usual (snd p)) c = get_events evs p c
  /\ occurrences_any F evs (usual (fst p), usual (snd p)) c = get_occurrences F evs p c
  /\ segmented_any F evs (usual (fst p), usual (snd p)) c = get_occurrences_segmented F evs p c.
Proof.
  intros F evs p c. assert (O : occurrences_any F evs (usual (fst p), usual (snd p)) c = get_occurrences F evs p c).
  { unfold occurrences_any, get_occurrences. destruct p as [[b|] [e|]]; cbn [fst snd usual rbind assert_bounded]; reflexivity. }
  split; [|split; [exact O|]].
  - unfold events_any, get_events. destruct (matching_events evs c); cbn [rbind]; try reflexivity. apply rfilter_ext_all. intros x. apply in_usual.
  - unfold segmented_any, get_occurrences_segmented. rewrite O. unfold get_occurrences.
    destruct p as [[b|] [e|]]; cbn [fst snd usual rbind assert_bounded]; try reflexivity.
Qed.

Lemma in_odd t d p b : odd p -> in_period_any t d p = Ok b -> b = false.
Proof.
  intros O. unfold in_period_any. destruct p as [x y]. cbn [fst snd] in *. unfold odd in O; cbn [fst snd] in O.
  destruct x; cbn [odd_bound] in O; [| |destruct (end_of t d); discriminate..].
  - destruct y; cbn [odd_bound] in O; try (now destruct O); discriminate.
  - destruct (end_of t d) as [z| |]; cbn [rbind]; try discriminate. destruct (z <=? t0); [congruence|]. destruct y; cbn [odd_bound] in O; try (now destruct O); discriminate.
Qed.
Lemma rfilter_none {A} (f : A -> res bool) l : (forall x b, f x = Ok b -> b = false) -> forall out, rfilter f l = Ok out -> out = [].
Proof.
  intros H. induction l as [|x l IH]; intros out; cbn [rfilter]; [congruence|]. destruct (f x) as [b| |] eqn:E; cbn [rbind]; try discriminate.
  apply H in E. subst b. destruct (rfilter f l); cbn [rbind]; try discriminate. intros X. injection X as <-. now apply IH.
Qed.
Lemma rconcat_none {A B} (f : A -> res (list B)) l : (forall x b, f x = Ok b -> b = []) -> forall out, rconcat_map f l = Ok out -> out = [].
Proof.
  intros H. induction l as [|x l IH]; intros out; cbn [rconcat_map]; [congruence|]. destruct (f x) as [b| |] eqn:E; cbn [rbind]; try discriminate.
  apply H in E. subst b. destruct (rconcat_map f l); cbn [rbind]; try discriminate. intros X. injection X as <-. now apply IH.
Qed.
Lemma expand_odd F e p out : odd p -> expand_any F e p = Ok out -> out = [].
Proof.
  intros O. unfold expand_any. destruct (e_recurrence e) as [r|].
  - destruct (snd p) as [|pe| |] eqn:E; try discriminate. destruct (apply F r _ _) as [l f].
    destruct (rconcat_map _ l) as [x| |] eqn:X; cbn [rbind]; try discriminate. intros Y. assert (out = x) as -> by (destruct f; congruence).
    apply rconcat_none in X; [exact X|]. intros d b. cbn beta. destruct (in_period_any _ _ p) as [k| |] eqn:K; cbn [rbind]; try discriminate.
    apply (in_odd _ _ _ _ O) in K. subst k. congruence.
  - destruct (in_period_any _ _ p) as [k| |] eqn:K; cbn [rbind]; try discriminate. apply (in_odd _ _ _ _ O) in K. subst k. congruence.
Qed.
Lemma occurrences_odd F evs p c out : odd p -> occurrences_any F evs p c = Ok out -> out = [].
Proof.
  intros O. unfold occurrences_any. destruct (match p with (BNone, _) | (_, BNone) => _ | _ => _ end); cbn [rbind]; try discriminate.
  destruct (matching_events evs c) as [l| |]; cbn [rbind]; try discriminate. intros H. apply rconcat_none in H; [exact H|]. intros x b. now apply expand_odd.
Qed.

(** with another kind of bound no query returns anything *)
Theorem C167_odd_periods_find_nothing : forall F evs p c, odd p ->
  (forall out, events_any evs p c = Ok out -> out = [])
  /\ (forall out, occurrences_any F evs p c = Ok out -> out = [])
  /\ (forall out, segmented_any F evs p c = Ok out -> out = [])
  /\ (forall occs out, segment_any p occs = Ok out -> occs = [] /\ out = [])
  /\ (forall atts tb te out, blocked_any F evs atts p tb te <> Ok out)
  /\ (forall atts tb te m out, free_any F evs atts p tb te m <> Ok out).
Proof.
  intros F evs p c O.
  assert (B : forall atts tb te out, blocked_any F evs atts p tb te <> Ok out).
  { intros atts tb te out. unfold blocked_any. destruct p as [x y]. unfold odd in O; cbn [fst snd] in O.
    destruct x, y; cbn [odd_bound] in O; try (now destruct O); match goal with |- rbind ?z _ <> _ => destruct z end; cbn [rbind]; discriminate. }
  split; [|split; [|split; [|split; [|split; [exact B|]]]]].
  - intros out. unfold events_any. destruct (matching_events evs c) as [l| |]; cbn [rbind]; try discriminate. apply rfilter_none. intros x b. now apply in_odd.
  - intros out. now apply occurrences_odd.
  - intros out. unfold segmented_any. destruct (occurrences_any F evs p c) as [l| |] eqn:E; cbn [rbind]; try discriminate.
    apply (occurrences_odd _ _ _ _ _ O) in E. subst l. unfold segment_any. destruct p as [x y]. destruct x, y; unfold segment_occurrences; cbn [rconcat_map]; congruence.
  - intros occs out. unfold segment_any. destruct p as [x y]. unfold odd in O; cbn [fst snd] in O.
    destruct x, y; cbn [odd_bound] in O; try (now destruct O); destruct occs as [|o occs]; try discriminate; try (intros X; injection X as <-; now split);
      destruct (end_of _ _); cbn [rbind]; try discriminate; destruct (next_midnight _); cbn [rbind]; discriminate.
  - intros atts tb te m out. specialize (B atts tb te). unfold free_any. destruct p as [x y]. unfold odd in O; cbn [fst snd] in O.
    destruct x, y; cbn [odd_bound] in O; try (now destruct O); match goal with |- rbind ?z _ <> _ => destruct z end; cbn [rbind]; discriminate.
Qed.

Lemma in_same t d p q : same_or_odd (fst p) (fst q) -> same_or_odd (snd p) (snd q) -> in_period_any t d p = in_period_any t d q.
Proof.
  destruct p as [x y], q as [x' y']. unfold same_or_odd, in_period_any; cbn [fst snd].
  intros [<-|[O O']] [<-|[P P']]; try reflexivity; repeat match goal with H : odd_bound ?b |- _ => destruct b; cbn [odd_bound] in H; try contradiction end; reflexivity.
Qed.
Lemma expand_same F e p q : same_or_odd (fst p) (fst q) -> same_or_odd (snd p) (snd q) -> expand_any F e p = expand_any F e q.
Proof.
  intros H K. unfold expand_any. rewrite (in_same _ _ p q H K). destruct (e_recurrence e) as [r|]; [|reflexivity].
  assert (G : forall pe, snd p = BTime pe -> snd q = BTime pe) by (intros pe E; destruct K as [<-|[O _]]; [exact E|rewrite E in O; contradiction]).
  assert (G' : forall pe, snd q = BTime pe -> snd p = BTime pe) by (intros pe E; destruct K as [->|[_ O]]; [exact E|rewrite E in O; contradiction]).
  destruct (snd p) as [|pe| |] eqn:E; try (destruct (snd q) as [|pe'| |] eqn:E'; try reflexivity; specialize (G' _ eq_refl); discriminate).
  rewrite (G _ eq_refl). destruct (apply F r _ _) as [l f]. erewrite rconcat_ext_all; [reflexivity|]. intros d. cbn beta. now rewrite (in_same _ _ p q H) by (rewrite E, (G _ eq_refl); now left).
Qed.

(** which length or which day it is makes no difference *)
Theorem C167_length_ignored : forall F evs p q c, same_or_odd (fst p) (fst q) -> same_or_odd (snd p) (snd q) ->
  events_any evs p c = events_any evs q c /\ occurrences_any F evs p c = occurrences_any F evs q c.
Proof.
  intros F evs p q c H K. split.
  - unfold events_any. destruct (matching_events evs c); cbn [rbind]; try reflexivity. apply rfilter_ext_all. intros x. now apply in_same.
  - unfold occurrences_any. replace (match p with (BNone, _) | (_, BNone) => Raise AssertionError | _ => Ok tt end)
      with (match q with (BNone, _) | (_, BNone) => Raise AssertionError | _ => Ok tt end).
    + match goal with |- rbind ?z _ = _ => destruct z end; cbn [rbind]; try reflexivity.
      destruct (matching_events evs c); cbn [rbind]; try reflexivity. apply rconcat_ext_all. intros x. now apply expand_same.
    + destruct p as [x y], q as [x' y']. unfold same_or_odd in *; cbn [fst snd] in *.
      destruct H as [<-|[O O']], K as [<-|[P P']]; try reflexivity;
        repeat match goal with H : odd_bound ?b |- _ => destruct b; cbn [odd_bound] in H; try contradiction end; reflexivity.
Qed.

(** exactly what getEvents makes of it: nothing if every event asked about is over by then,
    else TypeError.  Missing: the events of the period *)
Theorem C167_period_partial : forall evs b m c l, matching_events evs c = Ok l ->
  (forall e, In e l -> exists y, end_of (e_dtstart e) (e_duration e) = Ok y) ->
  events_any evs (make_period b m) c =
    if forallb (fun e => match end_of (e_dtstart e) (e_duration e) with Ok y => y <=? b | _ => false end) l then Ok [] else Raise TypeError.
Proof.
  intros evs b m c l M. change (make_period b m) with (BTime b, BLength (m * MINUTE)). unfold events_any. rewrite M. cbn [rbind]. clear M. induction l as [|e l IH]; intros H; [reflexivity|]. cbn [rfilter forallb].
  destruct (H e (or_introl eq_refl)) as [y Y]. unfold in_period_any at 1. cbn [fst snd]. rewrite Y. cbn [rbind].
  destruct (y <=? b); cbn [rbind andb]; [|reflexivity]. rewrite IH by (intros x X; apply H; now right). now destruct (forallb _ l).
Qed.

(** a meeting that takes place during the period: not found but an exception *)
Theorem C167_refuted : exists evs b m out,
  evs_ok evs /\ 0 < m /\ events_any evs (meant b m) None = Ok out /\ out <> [] /\ events_any evs (make_period b m) None = Raise TypeError.
Proof.
  exists [q_event "x" (at_ 0 9) HOUR None "CONFIRMED" false [("alice", "ACCEPTED")]]%string, (at_ 0 8), 120.
  eexists. split; [|split; [reflexivity|split; [vm_compute; reflexivity|split; [discriminate|vm_compute; reflexivity]]]].
  intros e [<-|[]]. split; [split; [vm_compute; reflexivity|]; eexists; split; [reflexivity|]; vm_compute; intuition congruence|]. vm_compute. intuition congruence.
Qed.

(** a meeting that is over by then and a recurring one: getEvents gives nothing,
    getOccurrences raises AttributeError, and so do getBlockedPeriods and getFreePeriods *)
Example C167_case :
  let evs := [q_event "x" (at_ 0 9) HOUR None "CONFIRMED" false [("alice", "ACCEPTED")]]%string in
  let evs2 := (evs ++ [q_event "y" (at_ 0 9) HOUR (Some (mkRule KDaily 1 None None [] [] "monthday")) "CONFIRMED" false [("alice", "ACCEPTED")]]%string)%list in
  odd (make_period (at_ 0 12) 30) /\ ~ odd (meant (at_ 0 12) 30)
  /\ events_any evs2 (make_period (at_ 0 12) 30) None = Ok []
  /\ occurrences_any 20 evs (make_period (at_ 0 12) 30) None = Ok []
  /\ occurrences_any 20 evs2 (make_period (at_ 0 12) 30) None = Raise AttributeError
  /\ blocked_any 20 evs [Some "alice"%string] (make_period (at_ 0 12) 30) (9 * HOUR) (17 * HOUR) = Raise AttributeError
  /\ free_any 20 evs [Some "alice"%string] (make_period (at_ 0 8) 30) (9 * HOUR) (17 * HOUR) None = Raise TypeError
  /\ events_any evs (BDay (dt_date (at_ 0 9)), BNone) None = Raise TypeError
  /\ same_or_odd (snd (make_period (at_ 0 12) 30)) (snd (make_period (at_ 0 12) 90))
  /\ segmented_any 20 evs2 (BTime (at_ 1 0), BTime (at_ 2 0)) None = get_occurrences_segmented 20 evs2 (Some (at_ 1 0), Some (at_ 2 0)) None.
Proof. split; [right; exact I|]. split; [intros [H|H]; exact H|]. repeat (split; [vm_compute; reflexivity|]). split; [right; split; exact I|]. vm_compute. reflexivity. Qed.

Print Assumptions C167_usual.
Print Assumptions C167_odd_periods_find_nothing.
Print Assumptions C167_length_ignored.
Print Assumptions C167_period_partial.
Print Assumptions C167_refuted.
