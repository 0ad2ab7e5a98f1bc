(** Property theorems C160: events somebody has nothing to do with. *)
From Verif Require Import Base PyDate Recurrent CalTime Event Storage ICal System.
From Verif Require Import EventProofs SpecProofs SystemProofs StoreProofs BlockProofs ShuffleProofs ShuffleSystem PropEvent PropSystem PropCalendar PropShuffle PropIndependent.
From Coq Require Import Sorting.Permutation.

(** ** Specification *)
(** one of these people takes part in the event *)
Definition concerns (l : list attendee) (e : event) : bool :=
  existsb (fun a => match a with Some i => match dget (e_state e) i with Some _ => true | None => false end | None => false end) l.

(** under this id is no event, or one that is none of their business *)
Definition foreign (l : list attendee) (x : option event) : Prop := match x with Some e => concerns l e = false | None => True end.

(** the same to their eyes: what they have to do with is the same *)
Definition same_to (l : list attendee) (s t : system) : Prop :=
  forall u, shown s u = shown t u \/ (foreign l (shown s u) /\ foreign l (shown t u)).

(** the people a call names *)
Definition named (d : deed) : list attendee :=
  match d with
  | DCreate sp | DSpecify sp => s_organizer sp :: map (fun x => fst (fst x)) (s_attendees sp)
  | DInvite l => l
  | DStatus a _ => [a]
  | _ => []
  end.

(** ** Lists of events *)
Lemma concerns_incl l l' e : incl l l' -> concerns l e = true -> concerns l' e = true.
Proof. intros I H. apply existsb_exists in H as (a & A & B). apply existsb_exists. exists a. split; [now apply I|exact B]. Qed.

Lemma match_foreign c e l : ~ In None l -> concerns l e = false -> match_attendees c e l = Ok false.
Proof.
  induction l as [|a l IH]; intros N H; [reflexivity|]. cbn [match_attendees]. unfold concerns in H. cbn [existsb] in H.
  apply orb_false_iff in H as [A B]. destruct a as [i|]; [|exfalso; apply N; now left].
  unfold has_attendee, get_status. cbn [attendee_id rbind]. destruct (dget (e_state e) i); [discriminate|]. cbn [negb].
  apply IH; [|exact B]. intros X. apply N. now right.
Qed.

Lemma criteria_foreign c l e : c_organizer c <> Some None -> c_attendees c = Some l -> ~ In None l -> concerns l e = false ->
  match_criteria c e = Ok false.
Proof.
  intros O A N H. unfold match_criteria. destruct (match c_categories c with Some _ => _ | None => _ end); [reflexivity|].
  destruct (c_organizer c) as [[i|]|]; [|now exfalso|]; cbn [attendee_id rbind]; [destruct (negb _); [reflexivity|]|];
    rewrite A; now apply match_foreign.
Qed.

Lemma rfilter_drop {A} (f : A -> res bool) (g : A -> bool) l : (forall x, g x = false -> f x = Ok false) ->
  rfilter f l = rfilter f (filter g l).
Proof.
  intros H. induction l as [|x l IH]; [reflexivity|]. cbn [rfilter filter]. destruct (g x) eqn:G.
  - cbn [rfilter]. now rewrite IH.
  - rewrite (H x G). cbn [rbind]. rewrite IH. now destruct (rfilter f (filter g l)).
Qed.

Lemma matching_drop evs c l l' : c_organizer c <> Some None -> c_attendees c = Some l -> ~ In None l -> incl l l' ->
  matching_events evs (Some c) = matching_events (filter (concerns l') evs) (Some c).
Proof.
  intros O A N I. unfold matching_events. apply rfilter_drop. intros e E. apply (criteria_foreign c l e O A N).
  destruct (concerns l e) eqn:X; [|reflexivity]. now rewrite (concerns_incl l l' e I X) in E.
Qed.

(** the criteria in force when a calendar is asked *)
Lemma restricted c l : no_attendees c -> match c with Some c => c_organizer c <> Some None | None => True end ->
  c_organizer (restrict_attendees c l) <> Some None /\ c_attendees (restrict_attendees c l) = Some l.
Proof.
  intros NA O. destruct c as [c|]; cbn [restrict_attendees].
  - unfold clone. cbn [c_organizer c_attendees norm_attendees]. split.
    + destruct (c_organizer c); [exact O|discriminate].
    + destruct NA as [->| ->]; reflexivity.
  - cbn. split; [discriminate|reflexivity].
Qed.

Lemma events_drop evs p c l l' : c_organizer c <> Some None -> c_attendees c = Some l -> ~ In None l -> incl l l' ->
  get_events evs p (Some c) = get_events (filter (concerns l') evs) p (Some c).
Proof. intros. unfold get_events. now rewrite (matching_drop evs c l l'). Qed.

Lemma occurrences_drop F evs p c l l' : c_organizer c <> Some None -> c_attendees c = Some l -> ~ In None l -> incl l l' ->
  get_occurrences F evs p (Some c) = get_occurrences F (filter (concerns l') evs) p (Some c).
Proof. intros. unfold get_occurrences. now rewrite (matching_drop evs c l l'). Qed.

Lemma segmented_drop F evs p c l l' : c_organizer c <> Some None -> c_attendees c = Some l -> ~ In None l -> incl l l' ->
  get_occurrences_segmented F evs p (Some c) = get_occurrences_segmented F (filter (concerns l') evs) p (Some c).
Proof. intros. unfold get_occurrences_segmented. now rewrite (occurrences_drop F evs p c l l'). Qed.

Lemma rconcat_ext {A B} (f g : A -> res (list B)) l : (forall a, In a l -> f a = g a) -> rconcat_map f l = rconcat_map g l.
Proof.
  induction l as [|a l IH]; intros H; [reflexivity|]. cbn [rconcat_map]. rewrite (H a (or_introl eq_refl)).
  destruct (g a); cbn [rbind]; try reflexivity. rewrite IH; [reflexivity|]. intros x X. apply H. now right.
Qed.

Lemma blocked_drop F evs l l' begins ends tb te : ~ In None l -> incl l l' ->
  get_blocked F evs l begins ends tb te = get_blocked F (filter (concerns l') evs) l begins ends tb te.
Proof.
  intros N I. unfold get_blocked. erewrite rconcat_ext; [reflexivity|]. intros a A. cbv beta.
  rewrite (segmented_drop F evs _ _ [a] l'); [reflexivity|discriminate|reflexivity| |].
  - intros [X|[]]. subst a. now apply N.
  - intros x [<-|[]]. now apply I.
Qed.

Lemma free_drop F evs l l' begins ends tb te m : ~ In None l -> incl l l' ->
  get_free F evs l begins ends tb te m = get_free F (filter (concerns l') evs) l begins ends tb te m.
Proof. intros N I. unfold get_free. now rewrite (blocked_drop F evs l l'). Qed.

(** Whatever is asked about some people, the answer, or the exception, is the same
    for two storages with the same events of these people: it does not depend on the
    others, not on how many there are, nor on whether they are in order. *)
Theorem C160_answers evs evs' l : ~ In None l -> filter (concerns l) evs = filter (concerns l) evs' ->
  (* through the storage, with criteria that name some of them *)
  (forall c, c_organizer c <> Some None -> forall k, c_attendees c = Some k -> incl k l ->
     (forall p, get_events evs p (Some c) = get_events evs' p (Some c))
     /\ (forall F p, get_occurrences F evs p (Some c) = get_occurrences F evs' p (Some c))
     /\ (forall F p, get_occurrences_segmented F evs p (Some c) = get_occurrences_segmented F evs' p (Some c)))
  (* through an attendee or a calendar, with criteria that name nobody *)
  /\ (forall c, no_attendees c -> match c with Some c => c_organizer c <> Some None | None => True end ->
     (forall a p, In a l -> attendee_events evs a p c = attendee_events evs' a p c)
     /\ (forall F a p, In a l -> attendee_occurrences F evs a p c = attendee_occurrences F evs' a p c)
     /\ forall k, incl k l ->
       (forall p, calendar_events evs k p c = calendar_events evs' k p c)
       /\ (forall F p, calendar_occurrences F evs k p c = calendar_occurrences F evs' k p c)
       /\ (forall F p, calendar_segmented F evs k p c = calendar_segmented F evs' k p c)
       /\ (forall d, calendar_events_in_day evs k d c = calendar_events_in_day evs' k d c)
       /\ (forall F d, calendar_occurrences_in_day F evs k d c = calendar_occurrences_in_day F evs' k d c))
  (* blocked and free periods *)
  /\ (forall F k begins ends tb te, incl k l ->
     get_blocked F evs k begins ends tb te = get_blocked F evs' k begins ends tb te
     /\ forall m, get_free F evs k begins ends tb te m = get_free F evs' k begins ends tb te m).
Proof.
  intros N H. assert (NK : forall k, incl k l -> ~ In None k) by (intros k I X; apply N; now apply I).
  assert (GE : forall c k, c_organizer c <> Some None -> c_attendees c = Some k -> incl k l ->
    forall p, get_events evs p (Some c) = get_events evs' p (Some c)).
  { intros c k O A I p. rewrite (events_drop evs p c k l), (events_drop evs' p c k l) by auto. now rewrite H. }
  assert (GO : forall c k, c_organizer c <> Some None -> c_attendees c = Some k -> incl k l ->
    forall F p, get_occurrences F evs p (Some c) = get_occurrences F evs' p (Some c)).
  { intros c k O A I F p. rewrite (occurrences_drop F evs p c k l), (occurrences_drop F evs' p c k l) by auto. now rewrite H. }
  assert (GS : forall c k, c_organizer c <> Some None -> c_attendees c = Some k -> incl k l ->
    forall F p, get_occurrences_segmented F evs p (Some c) = get_occurrences_segmented F evs' p (Some c)).
  { intros c k O A I F p. rewrite (segmented_drop F evs p c k l), (segmented_drop F evs' p c k l) by auto. now rewrite H. }
  split; [|split].
  - intros c O k A I. split; [|split]; [now apply (GE c k)|now apply (GO c k)|now apply (GS c k)].
  - intros c NA O. assert (S : forall a, In a l -> incl [a] l) by (intros a A x [<-|[]]; exact A). split; [|split].
    + intros a p A. destruct (restricted c [a]) as [X Y]; [exact NA|exact O|]. apply (GE _ [a] X Y). now apply S.
    + intros F a p A. destruct (restricted c [a]) as [X Y]; [exact NA|exact O|]. apply (GO _ [a] X Y). now apply S.
    + intros k I. destruct (restricted c k NA O) as [X Y].
      split; [|split; [|split; [|split]]]; [exact (GE _ k X Y I)|exact (GO _ k X Y I)|exact (GS _ k X Y I)| |].
      * intros d. unfold calendar_events_in_day. destruct (day_period d) as [p| |]; cbn [rbind]; try reflexivity. apply (GE _ k X Y I).
      * intros F d. unfold calendar_occurrences_in_day. destruct (day_period d) as [p| |]; cbn [rbind]; try reflexivity. apply (GS _ k X Y I).
  - intros F k b e tb te I. split.
    + rewrite (blocked_drop F evs k l), (blocked_drop F evs' k l) by auto. now rewrite H.
    + intros m. rewrite (free_drop F evs k l), (free_drop F evs' k l) by auto. now rewrite H.
Qed.
Print Assumptions C160_answers.

(** What somebody organizes depends only on the events they organize. *)
Theorem C160_organized evs evs' i c : match c with Some c => c_organizer c = None /\ c_attendees c = None | None => True end ->
  filter (fun e => opt_str_eqb (e_organizer e) (Some i)) evs = filter (fun e => opt_str_eqb (e_organizer e) (Some i)) evs' ->
  organized_events evs (Some i) c = organized_events evs' (Some i) c.
Proof.
  intros C H. unfold organized_events, get_events, matching_events.
  set (k := match c with None => _ | Some c => _ end).
  assert (O : c_organizer k = Some (Some i)) by (subst k; destruct c as [c|]; [|reflexivity]; destruct C as [C _]; cbn; now rewrite C).
  assert (D : forall l, rfilter (match_criteria k) l = rfilter (match_criteria k) (filter (fun e => opt_str_eqb (e_organizer e) (Some i)) l)).
  { intros l. apply rfilter_drop. intros e E. unfold match_criteria. destruct (match c_categories k with Some _ => _ | None => _ end); [reflexivity|].
    rewrite O. cbn [attendee_id rbind]. unfold get_organizer_id. now rewrite E. }
  now rewrite (D evs), (D evs'), H.
Qed.
Print Assumptions C160_organized.

(** ** Two states *)
Lemma same_to_refl l s : same_to l s s.
Proof. intros u. now left. Qed.

Lemma same_to_trans l s t v : same_to l s t -> same_to l t v -> same_to l s v.
Proof. intros H K u. destruct (H u) as [A|[A B]], (K u) as [C|[C D]]; [left; congruence|right; rewrite A; auto|right; rewrite <- C; auto|right; auto]. Qed.

Lemma shown_get s u e : shown s u = Some e <-> exists r, get_event s u = Ok r /\ e = obj s r.
Proof.
  unfold shown. destruct (get_event s u) as [r|x|]; split; try discriminate; try (intros (k & K & _); discriminate).
  - intros E. exists r. split; [reflexivity|congruence].
  - intros (k & K & E). congruence.
Qed.

Lemma same_to_perm l s t : store_inv s -> store_inv t -> same_to l s t ->
  Permutation (filter (concerns l) (stored s)) (filter (concerns l) (stored t)).
Proof.
  intros I I' H.
  assert (ND : forall t, store_inv t -> NoDup (stored t)).
  { intros v T. apply (NoDup_map_inv e_uid). rewrite stored_uids by exact T. apply T. }
  apply NoDup_Permutation; [now apply NoDup_filter, ND..|]. intros e. rewrite !filter_In, !stored_in by assumption.
  assert (X : forall s t, same_to l s t -> concerns l e = true -> (exists u r, get_event s u = Ok r /\ e = obj s r) -> exists u r, get_event t u = Ok r /\ e = obj t r).
  { clear. intros s t H C (u & G). exists u. apply shown_get. apply shown_get in G. destruct (H u) as [E|[E _]]; [congruence|].
    rewrite G in E. cbn in E. congruence. }
  split; intros [A B]; (split; [|exact B]).
  - now apply (X s t).
  - apply (X t s); [|exact B|exact A]. intros u. destruct (H u) as [E|[E E']]; [left|right]; auto.
Qed.

Lemma event_alike_self cf s : reachable cf s -> forall e, In e (stored s) -> event_alike e e.
Proof.
  intros R e E. unfold stored in E. apply in_map_iff in E as (kv & <- & _). apply obj_alike, (C120_itself cf), R.
Qed.

Lemma same_to_alike cf l s t : reachable cf s -> reachable cf t -> same_to l s t ->
  listed_alike event_alike (filter (concerns l) (stored s)) (filter (concerns l) (stored t)).
Proof.
  intros R R' H. exists (filter (concerns l) (stored t)). split; [apply same_to_perm; auto; now apply (reachable_store cf)|].
  assert (X : forall e, In e (filter (concerns l) (stored t)) -> event_alike e e)
    by (intros e E; apply filter_In in E as [E _]; now apply (event_alike_self cf t R')).
  revert X. generalize (filter (concerns l) (stored t)). intros k X. induction k as [|a k IH]; constructor; [apply X; now left|].
  apply IH. intros y Y. apply X. now right.
Qed.

(** A calendar with the same members gives the same answers in any two states that
    are the same to its members. *)
Theorem C160_states cf s t l : reachable cf s -> reachable cf t -> same_to l s t -> forall k,
  cal_attendees s k = Ok l -> cal_attendees t k = Ok l -> forall c, no_attendees c ->
  match c with Some c => c_organizer c <> Some None | None => True end ->
  (forall p, ends_alike (listed_alike event_alike) (cal_events s k p c) (cal_events t k p c))
  /\ (forall p, ends_alike (@Permutation vevent) (export_cal s k p c) (export_cal t k p c))
  /\ (forall F p, ends_alike (listed_alike occ_alike) (calendar_occurrences F (stored s) l p c) (calendar_occurrences F (stored t) l p c))
  /\ (forall F p, ends_alike (listed_alike occ_alike) (calendar_segmented F (stored s) l p c) (calendar_segmented F (stored t) l p c))
  /\ (forall F begins ends tb te, ends_alike eq (get_blocked F (stored s) l begins ends tb te) (get_blocked F (stored t) l begins ends tb te))
  /\ (forall F begins ends tb te m, ends_alike eq (get_free F (stored s) l begins ends tb te m) (get_free F (stored t) l begins ends tb te m)).
Proof.
  intros R R' H k K K' c NA O. pose proof (same_to_alike cf l s t R R' H) as A. destruct (restricted c l NA O) as [X Y].
  assert (N : ~ In None l).
  { pose proof (cal_attendees_some s k l K) as Z. rewrite Forall_forall in Z. intros Q. now apply (Z None Q). }
  assert (I : incl l l) by (intros z Z; exact Z).
  assert (E : forall p, ends_alike (listed_alike event_alike) (cal_events s k p c) (cal_events t k p c)).
  { intros p. unfold cal_events. rewrite K, K'. cbn [rbind]. unfold calendar_events. rewrite (events_drop (stored s) p _ l l), (events_drop (stored t) p _ l l) by auto.
    now apply get_events_alike. }
  split; [exact E|]. split.
  - intros p. unfold export_cal. eapply ends_bind; [apply E|]. intros l1 l2 Q.
    eapply map_alike; [|exact Q]. apply export_alike.
  - split; [|split; [|split]].
    + intros F p. unfold calendar_occurrences. rewrite (occurrences_drop F (stored s) p _ l l), (occurrences_drop F (stored t) p _ l l) by auto. now apply get_occurrences_alike.
    + intros F p. unfold calendar_segmented. rewrite (segmented_drop F (stored s) p _ l l), (segmented_drop F (stored t) p _ l l) by auto. now apply segmented_alike.
    + intros. rewrite (blocked_drop F (stored s) l l), (blocked_drop F (stored t) l l) by auto. now apply blocked_alike.
    + intros. rewrite (free_drop F (stored s) l l), (free_drop F (stored t) l l) by auto. now apply free_alike.
Qed.
Print Assumptions C160_states.

(** ** Calls that name none of them *)
Lemma concerns_none l e : concerns l e = false <-> forall i, In (Some i) l -> dget (e_state e) i = None.
Proof.
  unfold concerns. split.
  - intros H i I. destruct (dget (e_state e) i) eqn:D; [|reflexivity]. assert (X : existsb (fun a => match a with Some i => match dget (e_state e) i with Some _ => true | None => false end | None => false end) l = true).
    { apply existsb_exists. exists (Some i). split; [exact I|]. now rewrite D. } congruence.
  - intros H. match goal with |- context [existsb ?f l] => destruct (existsb f l) eqn:X end; [|reflexivity]. apply existsb_exists in X as ([i|] & A & B); [|discriminate]. now rewrite (H i A) in B.
Qed.

Lemma drem_none {V} (d : dict V) k j : dget d j = None -> dget (drem d k) j = None.
Proof.
  induction d as [|[a b] d IH]; intros H; [reflexivity|]. cbn [dget drem] in *. destruct (String.eqb j a) eqn:A; [discriminate|].
  destruct (String.eqb k a); [exact H|]. cbn [dget]. rewrite A. now apply IH.
Qed.

Lemma raw_foreign l e a st : ~ In a l -> concerns l e = false -> concerns l (mev (set_status_raw e a st)) = false.
Proof.
  intros A H. rewrite concerns_none in *. intros i I. specialize (H i I). assert (J : a <> Some i) by (intros ->; now apply A).
  unfold set_status_raw, mev. destruct a as [j|]; cbn [attendee_id]; [|exact H]. destruct st as [x|].
  - cbn [fst e_state with_state]. rewrite dget_dset. destruct (String.eqb_spec i j); [subst; now exfalso|exact H].
  - unfold ddel. destruct (dget (e_state e) j); cbn [fst]; [|exact H].
    cbn [e_role with_state]. destruct (dget (e_role e) j); cbn [fst e_state with_state with_role]; now apply drem_none.
Qed.

Lemma role_foreign l e a ro : concerns l e = false -> concerns l (mev (set_role e a ro)) = false.
Proof. intros H. unfold set_role, mev. destruct (str_in ro roles); [|exact H]. destruct (attendee_id a); exact H. Qed.

Lemma status_foreign l e a st : ~ In a l -> concerns l e = false -> concerns l (mev (set_status e a st)) = false.
Proof.
  intros A H. unfold set_status. destruct (match st with None => true | Some _ => _ end); [|exact H].
  destruct (get_status e a) as [old| |]; [|exact H..]. destruct (opt_str_eqb old st); [exact H|].
  apply (mbind_pres (fun e => concerns l e = false)); [now apply raw_foreign|]. intros e1 H1. exact H1.
Qed.

Lemma invite_foreign l k : (forall a, In a k -> ~ In a l) -> forall e, concerns l e = false -> concerns l (mev (invite e k)) = false.
Proof.
  induction k as [|a k IH]; intros A e H; [exact H|]. cbn [invite]. assert (K : forall e, concerns l e = false -> concerns l (mev (invite e k)) = false).
  { intros e1. apply IH. intros b B. apply A. now right. }
  destruct (get_status e a) as [[x|]| |]; [now apply K| |exact H..].
  apply (mbind_pres (fun e => concerns l e = false)); [|intros e1 H1; now apply K].
  apply (mbind_pres (fun e => concerns l e = false)); [apply status_foreign; [apply A; now left|exact H]|]. intros e1 H1. now apply role_foreign.
Qed.

Lemma specify_foreign l sp : (forall a, In a (s_organizer sp :: map (fun x => fst (fst x)) (s_attendees sp)) -> ~ In a l) ->
  forall e, concerns l e = false -> concerns l (mev (set_on_object sp e)) = false.
Proof.
  intros A e H. apply (set_on_object_pres (fun e => concerns l e = false)); [| | | |exact H]; clear e H.
  - intros e H. exact H.
  - intros e i O H. assert (J : ~ In (Some i) l) by (apply A; left; exact O). rewrite concerns_none in *. intros j I.
    unfold organize. cbn [e_state with_organizer with_role with_state]. rewrite dget_dset.
    destruct (String.eqb_spec j i); [subst; now exfalso|now apply H].
  - intros e _ H. exact H.
  - intros e a ro st I H. unfold entry_step. apply (mbind_pres (fun e => concerns l e = false)); [now apply role_foreign|].
    intros e1 H1. apply raw_foreign; [|exact H1]. apply A. right. apply in_map_iff. exists (a, ro, st). now split.
Qed.

Lemma adjust_foreign l e : concerns l e = false -> concerns l (allday_adjust e) = false.
Proof. intros H. unfold allday_adjust. destruct (e_duration e); exact H. Qed.

Lemma alone_foreign l u x d : (forall a, In a (named d) -> ~ In a l) -> foreign l x -> foreign l (fst (fst (alone u x d))).
Proof.
  intros A H. destruct d as [sp| |k|a st|a ro| |sp|sp]; cbn [alone named] in *.
  - destruct (new_event u sp) as [e|y|] eqn:E; cbn [fst]; [|exact H..].
    apply (new_event_pres (fun e => concerns l e = false) sp u e); [now apply specify_foreign|apply adjust_foreign| |exact E].
    apply concerns_none. reflexivity.
  - destruct x; exact I.
  - destruct x as [e|]; [|exact I]. pose proof (invite_foreign l k A e H) as X. unfold mev in X. destruct (invite e k) as [[e1 n] r]. exact X.
  - destruct x as [e|]; [|exact I]. pose proof (status_foreign l e a st (A a (or_introl eq_refl)) H) as X. unfold mev in X.
    destruct (set_status e a st) as [[e1 n] r]. exact X.
  - destruct x as [e|]; [|exact I]. pose proof (role_foreign l e a ro H) as X. unfold mev in X. destruct (set_role e a ro) as [[e1 n] r]. exact X.
  - destruct x as [e|]; [|exact I]. now apply adjust_foreign.
  - destruct x as [e|]; [|exact I]. exact H.
  - destruct x as [e|]; [|exact I]. pose proof (specify_foreign l sp A e H) as X. unfold mev in X. destruct (set_on_object sp e) as [[e1 n] r]. exact X.
Qed.

Lemma do_one_same cf s u d l : reachable cf s -> (forall a, In a (named d) -> ~ In a l) -> foreign l (shown s u) ->
  same_to l s (sst (do_by_id cf s (u, d))) /\ foreign l (shown (sst (do_by_id cf s (u, d))) u).
Proof.
  intros R A H. destruct (C126_alone cf s u d R) as (X & _ & _ & O).
  assert (F : foreign l (shown (sst (do_by_id cf s (u, d))) u)) by (rewrite X; now apply alone_foreign).
  split; [|exact F]. intros v. destruct (string_dec v u) as [->|NE]; [right; now split|left; symmetry; now apply O].
Qed.

Lemma same_foreign l s t u : same_to l s t -> foreign l (shown s u) -> foreign l (shown t u).
Proof. intros H F. destruct (H u) as [<-|[_ X]]; assumption. Qed.

Lemma do_all_same cf l w : forall s, reachable cf s ->
  (forall u d, In (u, d) w -> foreign l (shown s u) /\ forall a, In a (named d) -> ~ In a l) ->
  same_to l s (fst (do_all cf s w)).
Proof.
  induction w as [|[u d] w IH]; intros s R H; [apply same_to_refl|]. cbn [do_all].
  destruct (H u d (or_introl eq_refl)) as [F A]. destruct (do_one_same cf s u d l R A F) as [S _].
  pose proof (do_reachable cf s (u, d) R) as R'. destruct (do_by_id cf s (u, d)) as [[s' n] r]. unfold sst in S, R'. cbn [fst] in S, R'.
  specialize (IH s' R'). destruct (do_all cf s' w) as [s2 h]. cbn [fst] in *. apply (same_to_trans l s s' s2 S). apply IH.
  intros v d' V. destruct (H v d' (or_intror V)) as [F' A']. split; [now apply (same_foreign l s s' v S)|exact A'].
Qed.

Lemma do_by_id_cals cf s c : sys_cals (sst (do_by_id cf s c)) = sys_cals s /\ forall i, source_get (sst (do_by_id cf s c)) i = source_get s i.
Proof.
  destruct c as [u d]. unfold do_by_id. cbn [fst snd]. 
  assert (OE : forall r f, sys_cals (sst (on_event s r f)) = sys_cals s /\ forall i, source_get (sst (on_event s r f)) i = source_get s i).
  { intros r f. unfold on_event, sst. destruct (f (obj s r)) as [[e n] x]. split; reflexivity. }
  assert (SB : forall (k : nat -> smut unit), (forall r, sys_cals (sst (k r)) = sys_cals s /\ forall i, source_get (sst (k r)) i = source_get s i) ->
    sys_cals (sst (sbind (slift s (get_event s u)) (fun _ r => k r))) = sys_cals s /\ forall i, source_get (sst (sbind (slift s (get_event s u)) (fun _ r => k r))) i = source_get s i).
  { intros k K. unfold slift. destruct (get_event s u) as [r| |]; cbn [sbind]; [|split; reflexivity..].
    specialize (K r). destruct (k r) as [[s1 n] x]. exact K. }
  destruct d; cbn [deed_op step];
    try (match goal with |- context [sbind (slift s (get_event s u)) (fun s0 r => ?b)] => idtac end).
  - cbn [step]. unfold create_event. destruct (new_event u sp); split; reflexivity.
  - unfold slift. destruct (get_event s u) as [r| |]; cbn [sbind]; [|split; reflexivity..]. unfold delete_event. destruct (ddel _ _); split; reflexivity.
  - unfold slift. destruct (get_event s u) as [r| |]; cbn [sbind]; [|split; reflexivity..]. specialize (OE r (fun e => invite e l)). destruct (on_event s r _) as [[s1 n] x]. exact OE.
  - unfold slift. destruct (get_event s u) as [r| |]; cbn [sbind]; [|split; reflexivity..]. specialize (OE r (fun e => set_status e a st)). destruct (on_event s r _) as [[s1 n] x]. exact OE.
  - unfold slift. destruct (get_event s u) as [r| |]; cbn [sbind]; [|split; reflexivity..]. specialize (OE r (fun e => set_role e a ro)). destruct (on_event s r _) as [[s1 n] x]. exact OE.
  - unfold slift. destruct (get_event s u) as [r| |]; cbn [sbind]; [|split; reflexivity..]. specialize (OE r (fun e => (allday_adjust e, [], Ok tt))). destruct (on_event s r _) as [[s1 n] x]. exact OE.
  - unfold slift. destruct (get_event s u) as [r| |]; cbn [sbind]; [|split; reflexivity..]. specialize (OE r (fun e => (set_attrs sp e, [], Ok tt))). destruct (on_event s r _) as [[s1 n] x]. exact OE.
  - unfold slift. destruct (get_event s u) as [r| |]; cbn [sbind]; [|split; reflexivity..]. specialize (OE r (set_on_object sp)). destruct (on_event s r _) as [[s1 n] x]. exact OE.
Qed.

Lemma do_all_members cf w k : forall s, cal_attendees (fst (do_all cf s w)) k = cal_attendees s k.
Proof.
  induction w as [|c w IH]; intros s; [reflexivity|]. cbn [do_all]. pose proof (do_by_id_cals cf s c) as [C S].
  destruct (do_by_id cf s c) as [[s' n] r]. unfold sst in C, S. cbn [fst] in C, S. specialize (IH s'). destruct (do_all cf s' w) as [s2 h]. cbn [fst] in *.
  rewrite IH. unfold cal_attendees, cal. rewrite C. apply rmap_ext. exact S.
Qed.

(** Others may create, change and delete events, as many and in whatever way they like:
    as long as the ids they work on are not those of events of the members, and
    nothing they say names a member, the calendar keeps giving the same answers. *)
Theorem C160_others cf s w l k : reachable cf s -> cal_attendees s k = Ok l ->
  (forall u d, In (u, d) w -> foreign l (shown s u) /\ forall a, In a (named d) -> ~ In a l) ->
  let t := fst (do_all cf s w) in
  cal_attendees t k = Ok l /\ same_to l s t
  /\ forall c, no_attendees c -> match c with Some c => c_organizer c <> Some None | None => True end ->
  (forall p, ends_alike (listed_alike event_alike) (cal_events s k p c) (cal_events t k p c))
  /\ (forall p, ends_alike (@Permutation vevent) (export_cal s k p c) (export_cal t k p c))
  /\ (forall F p, ends_alike (listed_alike occ_alike) (calendar_occurrences F (stored s) l p c) (calendar_occurrences F (stored t) l p c))
  /\ (forall F p, ends_alike (listed_alike occ_alike) (calendar_segmented F (stored s) l p c) (calendar_segmented F (stored t) l p c))
  /\ (forall F begins ends tb te, ends_alike eq (get_blocked F (stored s) l begins ends tb te) (get_blocked F (stored t) l begins ends tb te))
  /\ (forall F begins ends tb te m, ends_alike eq (get_free F (stored s) l begins ends tb te m) (get_free F (stored t) l begins ends tb te m)).
Proof.
  intros R K H t. assert (K' : cal_attendees t k = Ok l) by (unfold t; now rewrite do_all_members).
  pose proof (do_all_same cf l w s R H) as S. split; [exact K'|]. split; [exact S|]. intros c NA O.
  apply (C160_states cf s t l R); auto. unfold t. now apply do_all_reachable.
Qed.
Print Assumptions C160_others.

(** Bob's business, in which Ann has no part: he deletes an event of his and makes another one under
    its id, moves it, calls himself the chair, and makes one more at the time of a meeting of Ann's. *)
Definition bobs_own : list (string * deed) :=
  [("b1", DDelete); ("b1", DDelete); ("b1", DCreate (p_spec (p_at 732500 9) None true bob [])); ("b1", DRole bob "CHAIR");
   ("b1", DSpecify (p_spec (p_at 732500 8) (Some DAY) false bob [(bob, "CHAIR", Some "DECLINED")])); ("b1", DStatus bob None);
   ("b2", DCreate (p_spec (p_at 732501 9) (Some HOUR) false None [(bob, "CHAIR", Some "ACCEPTED")])); ("b2", DInvite [bob]); ("b2", DAdjust)]%string.
Example C160_case : let s := run cf0 office in let t := fst (do_all cf0 s bobs_own) in
  reachable cf0 s /\ cal_attendees s 0 = Ok [ann]
  /\ (forall u d, In (u, d) bobs_own -> foreign [ann] (shown s u) /\ forall a, In a (named d) -> ~ In a [ann])
  /\ map e_uid (stored s) = ["a1"; "a2"; "b1"]%string /\ map e_uid (stored t) = ["a1"; "a2"; "b1"; "b2"]%string
  /\ shown s "b1" <> shown t "b1"
  /\ rbind (cal_events t 0 (None, None) None) (fun l => Ok (map e_uid l)) = Ok ["a1"; "a2"]%string.
Proof.
  split; [apply run_reachable|]. split; [vm_compute; reflexivity|]. split.
  - intros u d H. unfold bobs_own in H. cbn [In] in H.
    repeat (destruct H as [H|H]; [injection H as <- <-; split; [vm_compute; auto|cbn [named p_spec s_organizer s_attendees map fst In]; intros a A [B|[]]; subst a; cbn [In] in A; repeat destruct A as [A|A]; discriminate || exact A]|]).
    destruct H.
  - split; [vm_compute; reflexivity|]. split; [vm_compute; reflexivity|]. split; [vm_compute; discriminate|vm_compute; reflexivity].
Qed.

(** What an import does tells the caller about events of others: a text with an id that somebody else uses
    is ignored, and one with an id nobody uses becomes an event. *)
Theorem C160_import_tells : exists s t o l,
  reachable cf0 s /\ reachable cf0 t /\ same_to l s t /\ cal_attendees s 0 = Ok l /\ cal_attendees t 0 = Ok l
  /\ ~ same_to l (sst (step cf0 s o)) (sst (step cf0 t o)) /\ snt (step cf0 s o) = [] /\ snt (step cf0 t o) <> [].
Proof.
  exists (run cf0 office), (fst (do_all cf0 (run cf0 office) [("b1"%string, DDelete)])).
  exists (OImport 0 (Ok (Some [x_event "b1" 732505 "Secret" []])) (None, None) None false), [ann].
  assert (R : reachable cf0 (run cf0 office)) by apply run_reachable.
  split; [exact R|]. split; [now apply do_all_reachable|]. split.
  - apply do_all_same; [exact R|]. intros u d [H|[]]. injection H as <- <-. split; [vm_compute; reflexivity|]. intros a [].
  - split; [vm_compute; reflexivity|]. split; [vm_compute; reflexivity|]. split; [|split; [vm_compute; reflexivity|vm_compute; discriminate]].
    intros H. specialize (H "b1"%string). destruct H as [H|[_ H]]; revert H; vm_compute; discriminate.
Qed.
Print Assumptions C160_import_tells.
