(** Property theorems C134: what deleting an event, answering an invitation and
    moving an event do to the free time. *)
From Verif Require Import Base PyDate Recurrent CalTime Event Storage ICal System.
From Verif Require Import UtilProofs TimeProofs RecurProofs QueryProofs BlockProofs EventProofs SpecProofs SystemProofs StoreProofs ImportProofs PropEvent PropSystem PropQuery PropRoom PropMeeting.
Local Open Scope Z_scope.

(** ** Specification *)
(** an event other than object [r] takes the time of one of them at [t] *)
Definition taken_by_others (s : system) (r : nat) (atts : list attendee) (t : Z) : Prop :=
  exists u r' i, get_event s u = Ok r' /\ r' <> r /\ In (Some i) atts /\ takes_time (obj s r') i /\ happens (obj s r') t.

(** statuses that leave the time to the participant *)
Definition not_coming (st : string) : Prop := st = "DECLINED"%string \/ st = "DELEGATED"%string.

(** [t] is inside some occurrence of what is specified *)
Definition specified_at (sp : spec) (t : Z) : Prop :=
  exists t0 d, s_duration sp = Some d /\ t0 <= t < t0 + d
  /\ match s_recurrence sp with
     | None => t0 = s_dtstart sp
     | Some r => dt_time t0 = dt_time (s_dtstart sp) /\ rule_selects r (dt_date (s_dtstart sp)) (dt_date t0)
     end.

(** ** Proofs *)
Lemma stored_split s u r v : store_inv s -> get_event s u = Ok r ->
  (In v (stored s) <-> v = obj s r \/ exists u' r', get_event s u' = Ok r' /\ r' <> r /\ v = obj s r').
Proof.
  intros [N I] G. rewrite stored_iff by exact N. split.
  - intros (u' & r' & G' & ->). destruct (Nat.eq_dec r' r) as [->|NE]; [now left|right; eauto].
  - intros [->|(u' & r' & G' & _ & ->)]; eauto.
Qed.

Lemma busy_split s u r atts t : store_inv s -> get_event s u = Ok r ->
  (busy (stored s) atts t <-> taken_by_others s r atts t \/ exists i, In (Some i) atts /\ takes_time (obj s r) i /\ happens (obj s r) t).
Proof.
  intros I G. unfold busy, taken_by_others. split.
  - intros (i & v & X1 & X2 & X3 & X4). apply (stored_split s u r v I G) in X2 as [->|(u' & r' & G' & NE & ->)].
    + right. exists i. auto.
    + left. exists u', r', i. auto.
  - intros [(u' & r' & i & G' & NE & X1 & X2 & X3)|(i & X1 & X2 & X3)].
    + exists i, (obj s r'). split; [exact X1|]. split; [|auto]. apply (stored_split s u r _ I G). right. eauto.
    + exists i, (obj s r). split; [exact X1|]. split; [|auto]. apply (stored_split s u r _ I G). now left.
Qed.

Lemma on_event_get s r f u : get_event (sst (on_event s r f)) u = get_event s u.
Proof. unfold on_event. destruct (f (obj s r)) as [[e n] x]. reflexivity. Qed.

Lemma on_event_obj s r f r' : (r < List.length (sys_heap s))%nat ->
  obj (sst (on_event s r f)) r' = if (r' =? r)%nat then mev (f (obj s r)) else obj s r'.
Proof.
  intros L. unfold on_event. destruct (f (obj s r)) as [[e n] x]. unfold sst. cbn [fst]. rewrite obj_heap, replace_nth_get.
  apply Nat.ltb_lt in L. rewrite L. rewrite andb_true_r. reflexivity.
Qed.

Lemma on_event_others s r f atts t : store_inv s -> (r < List.length (sys_heap s))%nat ->
  (taken_by_others (sst (on_event s r f)) r atts t <-> taken_by_others s r atts t).
Proof.
  intros I L. unfold taken_by_others. split; intros (u' & r' & i & G & NE & X).
  - rewrite on_event_get in G. rewrite on_event_obj in X by exact L. replace (r' =? r)%nat with false in X by (symmetry; now apply Nat.eqb_neq).
    exists u', r', i. auto.
  - exists u', r', i. rewrite on_event_get, on_event_obj by exact L. replace (r' =? r)%nat with false by (symmetry; now apply Nat.eqb_neq). auto.
Qed.

Lemma get_stored s u r : store_inv s -> get_event s u = Ok r -> (r < List.length (sys_heap s))%nat /\ dget (sys_store s) u = Some r.
Proof.
  intros [_ I] G. unfold get_event in G. destruct (dget (sys_store s) u) as [r0|] eqn:D; [|discriminate]. injection G as <-.
  split; [apply (I _ _ D)|reflexivity].
Qed.

Lemma evs_ok_change s u r f : store_inv s -> get_event s u = Ok r -> evs_ok (stored s) ->
  event_ok (mev (f (obj s r))) -> event_rule_ok (mev (f (obj s r))) -> store_inv (sst (on_event s r f)) ->
  evs_ok (stored (sst (on_event s r f))).
Proof.
  intros I G OK K1 K2 I' v V. destruct (get_stored _ _ _ I G) as [L _].
  apply (stored_split _ u r v I') in V; [|now rewrite on_event_get].
  destruct V as [->|(u' & r' & G' & NE & ->)]; rewrite on_event_obj by exact L.
  - rewrite Nat.eqb_refl. auto.
  - replace (r' =? r)%nat with false by (symmetry; now apply Nat.eqb_neq). rewrite on_event_get in G'.
    apply OK. apply (stored_split s u r _ I G). right. eauto.
Qed.

Lemma outside_mod tb te t : ~ outside tb te t <-> tb <= t mod DAY < te.
Proof. unfold outside, dt_time. lia. Qed.

(** * C134 *)
Theorem C134_deleted : forall cf s u r s' n x F atts begins ends tb te l,
  reachable cf s -> evs_ok (stored s) -> dt_ok begins = true -> dt_ok ends = true -> begins < ends -> 0 <= tb < DAY /\ 0 <= te < DAY ->
  get_event s u = Ok r -> step cf s (ODelete r) = (s', n, x) ->
  get_free F (stored s') atts begins ends tb te None = Ok l ->
  forall t, begins <= t < ends -> (covers l t <-> tb <= t mod DAY < te /\ ~ taken_by_others s r atts t).
Proof.
  intros cf s u r s' n x F atts begins ends tb te l RE OK OB OE BE W G E FR t T.
  pose proof (reachable_store _ _ RE) as I. destruct (get_stored _ _ _ I G) as [L D].
  cbn [step] in E. rewrite (delete_event_ok _ _ _ I D) in E. injection E as <- _ _.
  assert (IN : forall v, In v (stored (with_store s (drem (sys_store s) u))) <-> exists u' r', get_event s u' = Ok r' /\ r' <> r /\ v = obj s r').
  { intros v. destruct I as [ND I]. rewrite stored_iff by (cbn [with_store sys_store]; now apply drem_nodup).
    unfold get_event. cbn [with_store sys_store].
    split; intros (u' & r' & X).
    - rewrite dget_drem in X by exact ND. destruct (String.eqb_spec u' u) as [->|NE]; [destruct X; discriminate|].
      destruct X as [X ->]. exists u', r'. split; [exact X|]. split; [|reflexivity].
      destruct (dget (sys_store s) u') as [r0|] eqn:D0; [|discriminate]. injection X as <-.
      intros ->. apply NE. destruct (I _ _ D) as (_ & U1 & _). destruct (I _ _ D0) as (_ & U2 & _). congruence.
    - destruct X as (X & NE & ->). exists u', r'. rewrite dget_drem by exact ND.
      destruct (String.eqb_spec u' u) as [->|_]; [rewrite D in X; congruence|]. auto. }
  assert (OK' : evs_ok (stored (with_store s (drem (sys_store s) u)))).
  { intros v V. apply IN in V as (u' & r' & G' & _ & ->). apply OK. apply stored_iff; [apply I|eauto]. }
  rewrite (get_free_covers _ _ _ _ _ _ _ _ OK' OB OE BE W FR t T), outside_mod.
  unfold busy, taken_by_others. split; intros [H1 H2]; (split; [exact H1|]); intros H; apply H2.
  - destruct H as (u' & r' & i & X1 & X2 & X3 & X4 & X5). exists i, (obj s r'). split; [exact X3|]. split; [apply IN; eauto|auto].
  - destruct H as (i & v & X1 & X2 & X3 & X4). apply IN in X2 as (u' & r' & Y1 & Y2 & ->). exists u', r', i. auto.
Qed.
Print Assumptions C134_deleted.

(** a change of who participates and how *)
Lemma participation_free cf s u r f s' n x F atts begins ends tb te l :
  reachable cf s -> reachable cf s' -> evs_ok (stored s) -> dt_ok begins = true -> dt_ok ends = true -> begins < ends -> window_ok tb te ->
  get_event s u = Ok r -> on_event s r f = (s', n, x) -> same_attrs (obj s r) (mev (f (obj s r))) ->
  get_free F (stored s') atts begins ends tb te None = Ok l ->
  forall t, begins <= t < ends ->
  (covers l t <-> tb <= t mod DAY < te /\ ~ taken_by_others s r atts t
    /\ ~ (e_transparent (obj s r) = false /\ e_status (obj s r) <> "CANCELED"%string /\ happens (obj s r) t
          /\ exists i st, In (Some i) atts /\ dget (e_state (mev (f (obj s r)))) i = Some st /\ ~ not_coming st)).
Proof.
  intros RE RE' OK OB OE BE W G E SA FR t T.
  pose proof (reachable_store _ _ RE) as I. destruct (get_stored _ _ _ I G) as [L D].
  set (e' := mev (f (obj s r))) in *.
  assert (S' : s' = sst (on_event s r f)) by (now rewrite E).
  assert (I' : store_inv (sst (on_event s r f))) by (rewrite <- S'; exact (reachable_store _ _ RE')).
  assert (OKE : event_ok (obj s r) /\ event_rule_ok (obj s r)) by (apply OK; apply stored_iff; [apply I|eauto]).
  unfold same_attrs in SA. decompose [and] SA.
  assert (OK' : evs_ok (stored (sst (on_event s r f)))).
  { apply (evs_ok_change s u r f I G OK); [| |exact I']; fold e'.
    - destruct OKE as [(K1 & d & K2 & K3 & K4) _]. split; [congruence|]. exists d. split; [congruence|]. split; [exact K3|congruence].
    - destruct OKE as [_ K]. unfold event_rule_ok in *. replace (e_recurrence e') with (e_recurrence (obj s r)) by congruence. exact K. }
  subst s'. rewrite (get_free_covers _ _ _ _ _ _ _ _ OK' OB OE BE W FR t T), outside_mod.
  rewrite (busy_split _ u r atts t I') by (now rewrite on_event_get). rewrite on_event_others by assumption.
  rewrite on_event_obj, Nat.eqb_refl by exact L. fold e'.
  assert (HA : happens e' t <-> happens (obj s r) t).
  { unfold happens, occurs. replace (e_recurrence e') with (e_recurrence (obj s r)) by congruence.
    replace (e_duration e') with (e_duration (obj s r)) by congruence. replace (e_dtstart e') with (e_dtstart (obj s r)) by congruence. reflexivity. }
  assert (Q : (exists i, In (Some i) atts /\ takes_time e' i /\ happens e' t)
     <-> (e_transparent (obj s r) = false /\ e_status (obj s r) <> "CANCELED"%string /\ happens (obj s r) t
          /\ exists i st, In (Some i) atts /\ dget (e_state e') i = Some st /\ ~ not_coming st)).
  { unfold takes_time, attends, not_coming.
    replace (e_transparent e') with (e_transparent (obj s r)) by congruence. replace (e_status e') with (e_status (obj s r)) by congruence.
    split.
    - intros (i & X1 & (X2 & X3 & st1 & X4 & X5 & X6) & X7). split; [exact X2|]. split; [exact X3|]. split; [now apply HA|].
      exists i, st1. split; [exact X1|]. split; [exact X4|tauto].
    - intros (X2 & X3 & X7 & i & st1 & X1 & X4 & X5).
      exists i. split; [exact X1|]. split; [|now apply HA]. split; [exact X2|]. split; [exact X3|]. exists st1. split; [exact X4|tauto]. }
  rewrite Q. tauto.
Qed.

Lemma step_reachable cf s o s' n x : reachable cf s -> step cf s o = (s', n, x) -> reachable cf s'.
Proof. intros [h RE] E. exists (h ++ [(o, n, x)]). econstructor; [exact RE|exact E]. Qed.

(** an answer counts for the one who gave it, and for nobody else; None is a removal *)
Theorem C134_answered : forall cf s u r j st s' n x F atts begins ends tb te l,
  reachable cf s -> evs_ok (stored s) -> dt_ok begins = true -> dt_ok ends = true -> begins < ends -> 0 <= tb < DAY /\ 0 <= te < DAY ->
  get_event s u = Ok r ->
  st = None \/ In st (map Some ["NEEDS-ACTION"; "ACCEPTED"; "DECLINED"; "TENTATIVE"; "DELEGATED"]%string) ->
  step cf s (OSetStatus r (Some j) st) = (s', n, x) ->
  get_free F (stored s') atts begins ends tb te None = Ok l ->
  forall t, begins <= t < ends ->
  (covers l t <-> tb <= t mod DAY < te /\ ~ taken_by_others s r atts t
    /\ ~ (e_transparent (obj s r) = false /\ e_status (obj s r) <> "CANCELED"%string /\ happens (obj s r) t
          /\ ((In (Some j) atts /\ exists a, st = Some a /\ ~ not_coming a)
              \/ exists i a, i <> j /\ In (Some i) atts /\ get_status (obj s r) (Some i) = Ok (Some a) /\ ~ not_coming a))).
Proof.
  intros cf s u r j st s' n x F atts begins ends tb te l RE OK OB OE BE W G ST E FR t T.
  pose proof (step_reachable _ _ _ _ _ _ RE E) as RE'. cbn [step] in E.
  assert (S : same_attrs (obj s r) (mev (set_status (obj s r) (Some j) st))
     /\ forall i, dget (e_state (mev (set_status (obj s r) (Some j) st))) i = if String.eqb i j then st else dget (e_state (obj s r)) i).
  { destruct (reachable_dicts_ok cf s r RE) as [DK _].
    unfold set_status. destruct (match st with Some s0 => str_in s0 statuses | None => true end) eqn:K.
    2:{ exfalso. destruct ST as [->|ST]; [discriminate|]. apply in_map_iff in ST as (a & <- & ST). apply str_in_iff in ST. unfold statuses in K. congruence. }
    unfold get_status. cbn [attendee_id rbind].
    destruct (opt_str_eqb (dget (e_state (obj s r)) j) st) eqn:O.
    - unfold mev. cbn [fst]. split; [apply same_attrs_refl|]. intros i.
      destruct (String.eqb_spec i j) as [->|]; [|reflexivity]. now apply opt_str_eqb_eq.
    - unfold set_status_raw. cbn [attendee_id]. destruct st as [st|].
      + cbn [mbind]. unfold mev. cbn [fst]. split; [apply same_attrs_state|].
        intros i. cbn [e_state with_state]. apply dget_dset.
      + unfold ddel. destruct (dget (e_state (obj s r)) j) as [a|] eqn:DJ; [|discriminate].
        assert (RM : forall i, dget (drem (e_state (obj s r)) j) i = if String.eqb i j then None else dget (e_state (obj s r)) i)
          by (intros i; now apply dget_drem).
        cbn [e_role with_state]. destruct (dget (e_role (obj s r)) j) as [ro|]; cbn [mbind]; unfold mev; cbn [fst].
        * split; [eapply same_attrs_trans; [apply same_attrs_state|apply same_attrs_role]|]. exact RM.
        * split; [apply same_attrs_state|exact RM]. }
  destruct S as (SA & SD).
  rewrite (participation_free cf s u r (fun e => set_status e (Some j) st) s' n x F atts begins ends tb te l RE RE' OK OB OE BE W G E SA FR t T).
  assert (Q : (exists i a, In (Some i) atts /\ dget (e_state (mev (set_status (obj s r) (Some j) st))) i = Some a /\ ~ not_coming a)
     <-> ((In (Some j) atts /\ exists a, st = Some a /\ ~ not_coming a)
              \/ exists i a, i <> j /\ In (Some i) atts /\ get_status (obj s r) (Some i) = Ok (Some a) /\ ~ not_coming a)).
  { unfold get_status. cbn [attendee_id rbind]. split.
    - intros (i & a & X1 & X2 & X3). rewrite SD in X2. destruct (String.eqb_spec i j) as [->|NE]; [left; eauto|].
      right. exists i, a. split; [exact NE|]. split; [exact X1|]. split; [congruence|exact X3].
    - intros [(X1 & a & -> & X3)|(i & a & NE & X1 & X2 & X3)].
      + exists j, a. split; [exact X1|]. rewrite SD, String.eqb_refl. auto.
      + exists i, a. split; [exact X1|]. rewrite SD. destruct (String.eqb_spec i j) as [|_]; [contradiction|]. split; [congruence|exact X3]. }
  rewrite Q. reflexivity.
Qed.
Print Assumptions C134_answered.

(** an invitation takes the time of those who were not asked before *)
Theorem C134_invited : forall cf s u r guests s' n x F atts begins ends tb te l,
  reachable cf s -> evs_ok (stored s) -> dt_ok begins = true -> dt_ok ends = true -> begins < ends -> 0 <= tb < DAY /\ 0 <= te < DAY ->
  get_event s u = Ok r -> ~ In None guests ->
  step cf s (OInvite r guests) = (s', n, x) ->
  get_free F (stored s') atts begins ends tb te None = Ok l ->
  forall t, begins <= t < ends ->
  (covers l t <-> tb <= t mod DAY < te /\ ~ taken_by_others s r atts t
    /\ ~ (e_transparent (obj s r) = false /\ e_status (obj s r) <> "CANCELED"%string /\ happens (obj s r) t
          /\ exists i, In (Some i) atts
               /\ ((get_status (obj s r) (Some i) = Ok None /\ In (Some i) guests)
                   \/ exists a, get_status (obj s r) (Some i) = Ok (Some a) /\ ~ not_coming a))).
Proof.
  intros cf s u r guests s' n x F atts begins ends tb te l RE OK OB OE BE W G NN E FR t T.
  pose proof (step_reachable _ _ _ _ _ _ RE E) as RE'. cbn [step] in E.
  destruct (invite_spec guests (obj s r) NN) as (e1 & ids & E1 & S1 & _ & I1 & D1 & _).
  assert (M : mev (invite (obj s r) guests) = e1) by (now rewrite E1).
  assert (SA : same_attrs (obj s r) (mev (invite (obj s r) guests))) by (now rewrite M).
  rewrite (participation_free cf s u r (fun e => invite e guests) s' n x F atts begins ends tb te l RE RE' OK OB OE BE W G E SA FR t T).
  rewrite M.
  assert (Q : (exists i a, In (Some i) atts /\ dget (e_state e1) i = Some a /\ ~ not_coming a)
     <-> exists i, In (Some i) atts
               /\ ((get_status (obj s r) (Some i) = Ok None /\ In (Some i) guests)
                   \/ exists a, get_status (obj s r) (Some i) = Ok (Some a) /\ ~ not_coming a)).
  { unfold get_status. cbn [attendee_id rbind]. split.
    - intros (i & a & X1 & X2 & X3). exists i. split; [exact X1|]. rewrite D1 in X2. destruct (str_in i ids) eqn:K.
      + left. apply str_in_iff in K. apply I1 in K as [K1 K2]. split; [congruence|exact K1].
      + right. exists a. split; [congruence|exact X3].
    - intros (i & X1 & [(X2 & X3)|(a & X2 & X3)]).
      + exists i, "NEEDS-ACTION"%string. split; [exact X1|]. split; [|unfold not_coming; intros [?|?]; discriminate].
        rewrite D1. replace (str_in i ids) with true; [reflexivity|]. symmetry. apply str_in_iff. apply I1. split; [exact X3|congruence].
      + exists i, a. split; [exact X1|]. split; [|exact X3]. rewrite D1. destruct (str_in i ids) eqn:K; [|congruence].
        apply str_in_iff in K. apply I1 in K as [_ K]. congruence. }
  rewrite Q. reflexivity.
Qed.
Print Assumptions C134_invited.

(** assigning attributes (cal.py 87-105 without organizer and attendees): the
    event takes the time it has now, for those who attended it before *)
Theorem C134_moved : forall cf s u r sp s' n x F atts begins ends tb te l,
  reachable cf s -> evs_ok (stored s') -> dt_ok begins = true -> dt_ok ends = true -> begins < ends -> 0 <= tb < DAY /\ 0 <= te < DAY ->
  get_event s u = Ok r ->
  step cf s (OAssign r sp) = (s', n, x) ->
  get_free F (stored s') atts begins ends tb te None = Ok l ->
  forall t, begins <= t < ends ->
  (covers l t <-> tb <= t mod DAY < te /\ ~ taken_by_others s r atts t
    /\ ~ (s_transparent sp = false /\ s_status sp <> "CANCELED"%string /\ specified_at sp t
          /\ exists i st, In (Some i) atts /\ get_status (obj s r) (Some i) = Ok (Some st) /\ ~ not_coming st)).
Proof.
  intros cf s u r sp s' n x F atts begins ends tb te l RE OK OB OE BE W G E FR t T.
  pose proof (reachable_store _ _ RE) as I. destruct (get_stored _ _ _ I G) as [L D].
  cbn [step] in E. set (f := fun e => (set_attrs sp e, @nil notification, Ok tt)) in *.
  assert (S' : s' = sst (on_event s r f)) by (now rewrite E).
  assert (I' : store_inv (sst (on_event s r f))).
  { rewrite <- S'. destruct RE as [h RE]. apply (reachable_store cf). exists (h ++ [(OAssign r sp, n, x)]). econstructor; [exact RE|exact E]. }
  subst s'. rewrite (get_free_covers _ _ _ _ _ _ _ _ OK OB OE BE W FR t T), outside_mod.
  rewrite (busy_split _ u r atts t I') by (now rewrite on_event_get). rewrite on_event_others by assumption.
  rewrite on_event_obj, Nat.eqb_refl by exact L. change (mev (f (obj s r))) with (set_attrs sp (obj s r)).
  assert (HA : happens (set_attrs sp (obj s r)) t <-> specified_at sp t).
  { unfold happens, occurs, specified_at. cbn [set_attrs e_recurrence e_duration e_dtstart]. split; intros (t0 & d & X); exists t0, d; tauto. }
  assert (Q : (exists i, In (Some i) atts /\ takes_time (set_attrs sp (obj s r)) i /\ happens (set_attrs sp (obj s r)) t)
     <-> (s_transparent sp = false /\ s_status sp <> "CANCELED"%string /\ specified_at sp t
          /\ exists i st, In (Some i) atts /\ get_status (obj s r) (Some i) = Ok (Some st) /\ ~ not_coming st)).
  { unfold takes_time, attends, not_coming, get_status. cbn [attendee_id rbind set_attrs e_transparent e_status e_state]. split.
    - intros (i & X1 & (X2 & X3 & st & X4 & X5 & X6) & X7). split; [exact X2|]. split; [exact X3|]. split; [now apply HA|].
      exists i, st. split; [exact X1|]. split; [congruence|tauto].
    - intros (X2 & X3 & X7 & i & st & X1 & X4 & X5). exists i. split; [exact X1|]. split; [|now apply HA]. split; [exact X2|]. split; [exact X3|].
      exists st. split; [congruence|tauto]. }
  rewrite Q. tauto.
Qed.
Print Assumptions C134_moved.

(** ** a week in which every one of these calls changes the answer *)
Definition asked_of (who : list string) (s : system) : res (list (Z * Z)) :=
  get_free 100 (stored s) (map Some who) (p_at 732500 0) (p_at 732501 0) (9 * HOUR) (17 * HOUR) None.

Example C134_ex : let s := run cf0 busy_week in
  let after o := sst (step cf0 s o) in
  reachable cf0 s /\ (exists u, get_event s u = Ok 0%nat)
  /\ asked_of ["ann"]%string s = Ok [(p_at 732500 11, p_at 732500 17)]
  /\ asked_of ["cid"]%string s = Ok [(p_at 732500 9, p_at 732500 17)]
  /\ asked_of ["ann"]%string (after (ODelete 0)) = Ok [(p_at 732500 9, p_at 732500 17)]
  /\ asked_of ["ann"]%string (after (OSetStatus 0 (Some "ann"%string) (Some "DECLINED"%string))) = Ok [(p_at 732500 9, p_at 732500 17)]
  /\ asked_of ["ann"]%string (after (OSetStatus 0 (Some "ann"%string) None)) = Ok [(p_at 732500 9, p_at 732500 17)]
  /\ asked_of ["cid"]%string (after (OInvite 0 [Some "cid"%string])) = Ok [(p_at 732500 11, p_at 732500 17)]
  /\ asked_of ["ann"]%string (after (OAssign 0 (p_spec (p_at 732500 13) (Some HOUR) false None [])))
     = Ok [(p_at 732500 9, p_at 732500 13); (p_at 732500 14, p_at 732500 17)].
Proof.
  cbv zeta. split; [apply run_reachable|]. split; [eexists (generated_id cf0 0 0); vm_compute; reflexivity|].
  repeat split; vm_compute; reflexivity.
Qed.
