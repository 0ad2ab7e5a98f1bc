(** Property theorems C139: the events somebody still has to answer, or has
    answered in some way (doc/usecase.txt 110-140). *)
From Verif Require Import Base PyDate Recurrent CalTime Event Storage ICal System.
From Verif Require Import UtilProofs TimeProofs RecurProofs QueryProofs BlockProofs EventProofs SpecProofs SystemProofs StoreProofs ImportProofs PropEvent PropSystem PropQuery PropCalendar PropRoom PropMeeting PropReschedule.
Local Open Scope Z_scope.

(** ** Specification *)
(** attendee.getEvents(period, SearchCriteria(participation_status=q)), doc/usecase.txt 112-113 *)
Definition having_status (s : system) (i q : string) (p : period) : res (list event) :=
  attendee_events (stored s) (Some i) p (Some (mk_criteria ANone (Some q) None None None)).

(** the first occurrence is in the period; [b <= t < e] is what the period means *)
Definition is_in (e : event) (p : period) : Prop :=
  (forall b d, fst p = Some b -> e_duration e = Some d -> b < e_dtstart e + d)
  /\ (forall x, snd p = Some x -> e_dtstart e < x).

(** the stored event with id [u] is in the period and [i] has status [q] in it *)
Definition listed (s : system) (i q : string) (p : period) (u : string) : Prop :=
  exists r, get_event s u = Ok r /\ get_status (obj s r) (Some i) = Ok (Some q) /\ is_in (obj s r) p.

Definition documented (q : string) : Prop :=
  In q ["NEEDS-ACTION"; "ACCEPTED"; "DECLINED"; "TENTATIVE"; "DELEGATED"]%string.

(** ** Proofs *)
Lemma get_events_is_in evs p c l : get_events evs p c = Ok l ->
  forall e, In e l <-> In e evs /\ satisfies (the_criteria c) e /\ is_in e p.
Proof.
  intros E e. destruct (e_duration e) as [d|] eqn:D.
  - rewrite (get_events_in _ _ _ _ E e d D). unfold touches, is_in.
    split; (intros (X1 & X2 & X3 & X4); split; [exact X1|]; split; [exact X2|]; split; [|exact X4]).
    + intros b d' B D'. rewrite D in D'. injection D' as <-. now apply X3.
    + intros b B. now apply (X3 b d).
  - unfold get_events in E. destruct (matching_events evs c) as [m| |] eqn:M; try discriminate. cbn [rbind] in E.
    rewrite (rfilter_in _ _ _ E), (matching_in _ _ _ M).
    assert (Q : In e evs /\ satisfies (the_criteria c) e -> (in_period (e_dtstart e) (e_duration e) p = Ok true <-> is_in e p)).
    { intros X. apply (matching_in _ _ _ M) in X. destruct (rfilter_all _ _ _ E e X) as [b B]. revert B. rewrite D.
      destruct p as [[x|] y]; cbn [in_period end_of rbind]; [discriminate|]. intros _. unfold is_in. cbn [fst snd]. rewrite D.
      destruct y as [y|]; [destruct (Z.leb_spec y (e_dtstart e))|]; cbn; split.
      - discriminate. - intros [_ X2]. specialize (X2 y eq_refl). lia.
      - intros _. split; [discriminate|]. intros x0 X0. injection X0 as <-. lia. - reflexivity.
      - intros _. split; discriminate. - reflexivity. }
    tauto.
Qed.

Lemma having_in s i q p l : store_inv s -> documented q -> having_status s i q p = Ok l ->
  forall e, In e l <-> exists u r, get_event s u = Ok r /\ e = obj s r /\ get_status e (Some i) = Ok (Some q) /\ is_in e p.
Proof.
  intros I Q E e. unfold having_status, attendee_events in E. rewrite (get_events_is_in _ _ _ _ E e), (stored_iff _ _ (proj1 I)).
  assert (Z : satisfies (the_criteria (Some (restrict_attendees (Some (mk_criteria ANone (Some q) None None None)) [Some i]))) e
              <-> get_status e (Some i) = Ok (Some q)).
  { assert (C : restrict_attendees (Some (mk_criteria ANone (Some q) None None None)) [Some i] = mkCrit (Some [Some i]) (Some q) None None None).
    { unfold documented in Q. cbn [In] in Q. unfold restrict_attendees, clone, mk_criteria.
      repeat (destruct Q as [<-|Q]; [reflexivity|]). destruct Q. }
    rewrite C. unfold satisfies, get_status, attends. cbn [the_criteria c_categories c_organizer c_attendees c_status c_role attendee_id rbind].
    split.
    - intros (_ & _ & H). destruct (H _ eq_refl) as (j & st & J & A & S & _). destruct J as [J|[]]. injection J as <-.
      rewrite A. now rewrite (S q eq_refl).
    - intros H. split; [discriminate|]. split; [discriminate|]. intros l0 L. injection L as <-. exists i, q.
      split; [now left|]. split; [congruence|]. split; [congruence|discriminate]. }
  rewrite Z. split.
  - intros ((u & r & G & X) & Y). exists u, r. auto.
  - intros (u & r & G & X & Y). split; [eauto|exact Y].
Qed.

Lemma stored_uids s : store_inv s -> map e_uid (stored s) = dkeys (sys_store s).
Proof.
  intros [N I]. unfold stored, dkeys. rewrite map_map. apply map_ext_in. intros [u r] H. cbn [snd fst].
  apply in_dget in H; [|exact N]. now apply I in H.
Qed.

Lemma having_listed s i q p l : store_inv s -> documented q -> having_status s i q p = Ok l ->
  forall u, In u (map e_uid l) <-> listed s i q p u.
Proof.
  intros I Q E u. rewrite in_map_iff. unfold listed. split.
  - intros (e & U & X). apply (having_in _ _ _ _ _ I Q E) in X as (u' & r & G & -> & X). exists r. split; [|exact X].
    assert (u' = u); [|now subst]. unfold get_event in G. destruct (dget (sys_store s) u') as [r'|] eqn:D; [|discriminate]. injection G as <-.
    destruct (proj2 I _ _ D) as (_ & U' & _). congruence.
  - intros (r & G & X). exists (obj s r). split; [|apply (having_in _ _ _ _ _ I Q E); exists u, r; auto].
    unfold get_event in G. destruct (dget (sys_store s) u) as [r'|] eqn:D; [|discriminate]. injection G as <-. now apply (proj2 I) in D.
Qed.

Lemma answer_state st e j : NoDup (dkeys (e_state e)) ->
  st = None \/ In st (map Some statuses) ->
  same_attrs e (mev (set_status e (Some j) st))
  /\ forall i, dget (e_state (mev (set_status e (Some j) st))) i = if String.eqb i j then st else dget (e_state e) i.
Proof.
  intros DK ST. unfold set_status. destruct (match st with Some s0 => str_in s0 statuses | None => true end) eqn:K.
  2:{ exfalso. destruct ST as [->|ST]; [discriminate|]. apply in_map_iff in ST as (a & <- & ST). apply str_in_iff in ST. congruence. }
  unfold get_status. cbn [attendee_id rbind].
  destruct (opt_str_eqb (dget (e_state e) j) st) eqn:O.
  - unfold mev. cbn [fst]. split; [apply same_attrs_refl|]. intros i.
    destruct (String.eqb_spec i j) as [->|]; [|reflexivity]. now apply opt_str_eqb_eq.
  - unfold set_status_raw. cbn [attendee_id]. destruct st as [st|].
    + cbn [mbind]. unfold mev. cbn [fst]. split; [apply same_attrs_state|].
      intros i. cbn [e_state with_state]. apply dget_dset.
    + unfold ddel. destruct (dget (e_state e) j) as [a|] eqn:DJ; [|discriminate].
      assert (RM : forall i, dget (drem (e_state e) j) i = if String.eqb i j then None else dget (e_state e) i)
        by (intros i; now apply dget_drem).
      cbn [e_role with_state]. destruct (dget (e_role e) j) as [ro|]; cbn [mbind]; unfold mev; cbn [fst].
      * split; [eapply same_attrs_trans; [apply same_attrs_state|apply same_attrs_role]|]. exact RM.
      * split; [apply same_attrs_state|exact RM].
Qed.

Lemma is_in_same e e' p : same_attrs e e' -> (is_in e' p <-> is_in e p).
Proof.
  intros SA. unfold same_attrs in SA. decompose [and] SA. unfold is_in.
  replace (e_duration e') with (e_duration e) by congruence. now replace (e_dtstart e') with (e_dtstart e) by congruence.
Qed.

Lemma listed_on_event s u r f i q p v : store_inv s -> get_event s u = Ok r -> same_attrs (obj s r) (mev (f (obj s r))) ->
  (listed (sst (on_event s r f)) i q p v <->
   (v <> u /\ listed s i q p v) \/ (v = u /\ dget (e_state (mev (f (obj s r)))) i = Some q /\ is_in (obj s r) p)).
Proof.
  intros I G SA. destruct (get_stored _ _ _ I G) as [L D]. unfold listed, get_status. cbn [attendee_id rbind].
  assert (SAME : forall w r', get_event s w = Ok r' -> (r' =? r)%nat = true -> w = u).
  { intros w r' G' H. apply Nat.eqb_eq in H. subst r'. destruct (get_stored _ _ _ I G') as [_ D'].
    destruct (proj2 I _ _ D) as (_ & U1 & _). destruct (proj2 I _ _ D') as (_ & U2 & _). congruence. }
  split.
  - intros (r' & G' & X). rewrite on_event_get in G'. rewrite (on_event_obj _ _ _ _ L) in X.
    destruct (r' =? r)%nat eqn:R.
    + right. split; [now apply (SAME v r')|]. destruct X as [X1 X2]. split; [congruence|]. now apply (is_in_same _ _ p SA).
    + left. split; [|exists r'; auto]. intros ->. rewrite G in G'. injection G' as <-. now rewrite Nat.eqb_refl in R.
  - intros [(NE & r' & G' & X)|(-> & X1 & X2)].
    + exists r'. rewrite on_event_get. split; [exact G'|]. rewrite (on_event_obj _ _ _ _ L).
      destruct (r' =? r)%nat eqn:R; [|exact X]. destruct NE. now apply (SAME v r').
    + exists r. rewrite on_event_get. split; [exact G|]. rewrite (on_event_obj _ _ _ _ L), Nat.eqb_refl.
      split; [congruence|]. now apply (is_in_same _ _ p SA).
Qed.

(** * C139 *)
(** The list has every event once, and exactly the events of the period in which
    the person has this status. *)
Theorem C139_exact : forall cf s i q p l, reachable cf s -> documented q -> having_status s i q p = Ok l ->
  NoDup (map e_uid l) /\ (forall u, In u (map e_uid l) <-> listed s i q p u)
  /\ forall e, In e l -> get_event s (e_uid e) <> Raise KeyError /\ get_status e (Some i) = Ok (Some q).
Proof.
  intros cf s i q p l RE Q E. pose proof (reachable_store _ _ RE) as I. split; [|split; [apply (having_listed _ _ _ _ _ I Q E)|]].
  - unfold having_status, attendee_events, get_events in E.
    destruct (matching_events _ _) as [m| |] eqn:M in E; try discriminate. cbn [rbind] in E.
    eapply rfilter_nodup_map; [exact E|]. unfold matching_events in M. eapply rfilter_nodup_map; [exact M|].
    rewrite stored_uids by exact I. apply I.
  - intros e X. apply (having_in _ _ _ _ _ I Q E) in X as (u & r & G & -> & X & _). split; [|exact X].
    destruct (get_stored _ _ _ I G) as [_ D]. destruct (proj2 I _ _ D) as (_ & -> & _). rewrite G. discriminate.
Qed.
Print Assumptions C139_exact.

(** It is answered whenever the stored events have starts and ends. *)
Theorem C139_answers : forall s i q p, (forall e, In e (stored s) -> event_ok e) -> exists l, having_status s i q p = Ok l.
Proof.
  intros s i q p H. apply get_events_total; [|exact H]. unfold the_criteria, crit_ok, restrict_attendees, clone. cbn.
  repeat split; try discriminate. intros l L. injection L as <-. intros [X|[]]; discriminate.
Qed.
Print Assumptions C139_answers.

(** The lists divide what the person is shown: by the status they have. *)
Theorem C139_divides : forall cf s i q p l all, reachable cf s -> documented q ->
  having_status s i q p = Ok l -> attendee_events (stored s) (Some i) p None = Ok all ->
  forall e, In e l <-> In e all /\ get_status e (Some i) = Ok (Some q).
Proof.
  intros cf s i q p l all RE Q E A e. pose proof (reachable_store _ _ RE) as I.
  rewrite (having_in _ _ _ _ _ I Q E). unfold attendee_events in A. rewrite (get_events_is_in _ _ _ _ A e), (stored_iff _ _ (proj1 I)).
  split.
  - intros (u & r & G & X & Y & Z). split; [|exact Y]. split; [eauto|]. split; [|exact Z].
    unfold satisfies. cbn. split; [discriminate|]. split; [discriminate|]. intros l0 L. injection L as <-.
    unfold get_status in Y. cbn in Y. exists i, q. split; [now left|]. unfold attends. split; [congruence|]. split; discriminate.
  - intros (((u & r & G & X) & _ & Z) & Y). exists u, r. auto.
Qed.
Print Assumptions C139_divides.

(** An answer moves that event, for that person, from the list of the old status to that
    of the new one, and changes nothing else in anybody's lists; with None it is
    in none of them. *)
Theorem C139_answered : forall cf s u r j st s' n x i q p l l',
  reachable cf s -> get_event s u = Ok r -> st = None \/ (exists a, st = Some a /\ documented a) -> documented q ->
  step cf s (OSetStatus r (Some j) st) = (s', n, x) ->
  having_status s i q p = Ok l -> having_status s' i q p = Ok l' ->
  forall v, In v (map e_uid l') <->
    (if String.eqb v u && String.eqb i j then st = Some q /\ is_in (obj s r) p else In v (map e_uid l)).
Proof.
  intros cf s u r j st s' n x i q p l l' RE G ST Q E H H' v.
  pose proof (reachable_store _ _ RE) as I. pose proof (reachable_store _ _ (step_reachable _ _ _ _ _ _ RE E)) as I'.
  rewrite (having_listed _ _ _ _ _ I' Q H'). pose proof (having_listed _ _ _ _ _ I Q H v) as HL.
  destruct (answer_state st (obj s r) j) as [SA SD].
  { apply (reachable_dicts_ok cf s r RE). }
  { destruct ST as [->|(a & -> & A)]; [now left|right]. now apply in_map. }
  cbn [step] in E. assert (S' : s' = sst (on_event s r (fun e => set_status e (Some j) st))) by (now rewrite E).
  rewrite S', (listed_on_event s u r (fun e => set_status e (Some j) st) i q p v I G SA), SD.
  destruct (String.eqb_spec v u) as [->|NV]; cbn [andb].
  - destruct (String.eqb_spec i j) as [->|NI]; [tauto|]. rewrite HL. unfold listed. split.
    + intros [[NE _]|(_ & X1 & X2)]; [now destruct NE|]. exists r. unfold get_status. cbn. rewrite X1. auto.
    + intros (r' & G' & X1 & X2). rewrite G in G'. injection G' as <-. right. unfold get_status in X1. cbn in X1.
      split; [reflexivity|]. split; [congruence|exact X2].
  - rewrite HL. tauto.
Qed.
Print Assumptions C139_answered.

(** An invitation puts the event on the list of those who had not been asked
    before; for everybody else, and in all other lists, nothing changes. *)
Theorem C139_invited : forall cf s u r guests s' n x i q p l l',
  reachable cf s -> get_event s u = Ok r -> ~ In None guests -> documented q ->
  step cf s (OInvite r guests) = (s', n, x) ->
  having_status s i q p = Ok l -> having_status s' i q p = Ok l' ->
  forall v, In v (map e_uid l') <-> In v (map e_uid l)
    \/ (q = "NEEDS-ACTION"%string /\ v = u /\ In (Some i) guests /\ get_status (obj s r) (Some i) = Ok None /\ is_in (obj s r) p).
Proof.
  intros cf s u r guests s' n x i q p l l' RE G NN Q E H H' v.
  pose proof (reachable_store _ _ RE) as I. pose proof (reachable_store _ _ (step_reachable _ _ _ _ _ _ RE E)) as I'.
  rewrite (having_listed _ _ _ _ _ I' Q H'), (having_listed _ _ _ _ _ I Q H).
  destruct (invite_spec guests (obj s r) NN) as (e1 & ids & E1 & S1 & _ & I1 & D1 & _).
  assert (M : mev (invite (obj s r) guests) = e1) by (now rewrite E1).
  cbn [step] in E. assert (S' : s' = sst (on_event s r (fun e => invite e guests))) by (now rewrite E).
  rewrite S', (listed_on_event s u r (fun e => invite e guests) i q p v I G); [|now rewrite M]. rewrite M, D1.
  unfold get_status. cbn [attendee_id rbind].
  assert (LU : listed s i q p u <-> dget (e_state (obj s r)) i = Some q /\ is_in (obj s r) p).
  { unfold listed, get_status. cbn [attendee_id rbind]. split.
    - intros (r' & G' & X1 & X2). rewrite G in G'. injection G' as <-. split; [congruence|exact X2].
    - intros [X1 X2]. exists r. rewrite X1. auto. }
  split.
  - intros [[_ X]|(-> & X1 & X2)]; [now left|]. destruct (str_in i ids) eqn:K.
    + right. apply str_in_iff in K. apply I1 in K as [K1 K2]. split; [congruence|]. split; [reflexivity|]. split; [exact K1|]. split; [congruence|exact X2].
    + left. apply LU. auto.
  - intros [X|(-> & -> & X1 & X2 & X3)].
    + destruct (String.eqb_spec v u) as [->|NV]; [|now left]. right. split; [reflexivity|]. apply LU in X as [X1 X2]. split; [|exact X2].
      destruct (str_in i ids) eqn:K; [|exact X1]. apply str_in_iff in K. apply I1 in K as [_ K2]. congruence.
    + right. split; [reflexivity|]. split; [|exact X3]. replace (str_in i ids) with true; [reflexivity|]. symmetry. apply str_in_iff. apply I1.
      split; [exact X1|congruence].
Qed.
Print Assumptions C139_invited.

(** A deleted event leaves all lists; nothing else changes in them. *)
Theorem C139_deleted : forall cf s u r s' n x i q p l l',
  reachable cf s -> get_event s u = Ok r -> documented q -> step cf s (ODelete r) = (s', n, x) ->
  having_status s i q p = Ok l -> having_status s' i q p = Ok l' ->
  forall v, In v (map e_uid l') <-> v <> u /\ In v (map e_uid l).
Proof.
  intros cf s u r s' n x i q p l l' RE G Q E H H' v.
  pose proof (reachable_store _ _ RE) as I. pose proof (reachable_store _ _ (step_reachable _ _ _ _ _ _ RE E)) as I'.
  rewrite (having_listed _ _ _ _ _ I' Q H'), (having_listed _ _ _ _ _ I Q H).
  destruct (get_stored _ _ _ I G) as [L D]. cbn [step] in E. rewrite (delete_event_ok _ _ _ I D) in E. injection E as <- _ _.
  unfold listed, get_event. cbn [with_store sys_store]. split.
  - intros (r' & G' & X). rewrite dget_drem in G' by apply I. destruct (String.eqb_spec v u) as [->|NE]; [discriminate|]. split; [exact NE|]. exists r'. auto.
  - intros (NE & r' & G' & X). exists r'. rewrite dget_drem by apply I. destruct (String.eqb_spec v u) as [->|_]; [now destruct NE|]. auto.
Qed.
Print Assumptions C139_deleted.

(** ** doc/usecase.txt 56-140 *)
Definition usecase : list op :=
  [OAttendee "florent" "Florent" "INDIVIDUAL"; OAttendee "martijn" "Martijn" "INDIVIDUAL"; OAttendee "bob" "Bob" "INDIVIDUAL";
   OAttendeeCreate "florent" (p_spec (p_at 732046 16) (Some HOUR) false None []) 0;
   OInvite 0 [Some "martijn"; Some "bob"]]%string.
Definition april : period := (Some (p_at 732037 0), Some (p_at 732067 0)).
Definition to_do (s : system) (i : string) : res (list string) :=
  let* l := having_status s i "NEEDS-ACTION" april in Ok (map e_uid l).

Example C139_case : let s := run cf0 usecase in
  let u := generated_id cf0 0 0 in
  let answered := sst (step cf0 s (OSetStatus 0 (Some "martijn"%string) (Some "ACCEPTED"%string))) in
  let again := sst (step cf0 answered (OInvite 0 [Some "martijn"%string])) in
  reachable cf0 s /\ get_event s u = Ok 0%nat /\ (forall e, In e (stored s) -> event_ok e)
  /\ to_do s "martijn" = Ok [u] /\ to_do s "bob" = Ok [u] /\ to_do s "florent" = Ok []
  /\ to_do answered "martijn" = Ok [] /\ to_do answered "bob" = Ok [u]
  /\ to_do again "martijn" = Ok []
  /\ to_do (sst (step cf0 s (ODelete 0))) "bob" = Ok [].
Proof.
  cbv zeta. split; [apply run_reachable|]. split; [vm_compute; reflexivity|]. split.
  { apply all_event_ok. vm_compute. reflexivity. }
  do 6 (split; [vm_compute; reflexivity|]). vm_compute; reflexivity.
Qed.
