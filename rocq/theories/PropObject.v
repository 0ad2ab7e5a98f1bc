(** Subscribers that invite, and subscribers that raise. *)
From Verif Require Import Base PyDate Recurrent CalTime Event Storage ICal System Deliver
  QueryProofs EventProofs SpecProofs SystemProofs StoreProofs DeliverProofs PropEvent PropSystem PropDeliver.

(** * C124: invitations never override responses *)
(** calls that neither set a status nor import or specify a whole event *)
Definition inviting (o : op) : Prop :=
  match o with OSetStatus _ _ _ | OImport _ _ _ _ _ | OSpecify _ _ => False | _ => True end.
(** whoever has a status keeps it *)
Definition answers_kept (s s' : system) : Prop :=
  (List.length (sys_heap s) <= List.length (sys_heap s'))%nat
  /\ forall r i st, (r < List.length (sys_heap s))%nat ->
       get_status (obj s r) (Some i) = Ok (Some st) -> get_status (obj s' r) (Some i) = Ok (Some st).
Definition no_override (x : notification) : Prop :=
  match x with
  | NParticipation _ _ old new => old = None /\ new = Some "NEEDS-ACTION"%string
  | _ => True
  end.

Lemma answers_refl s : answers_kept s s.
Proof. now split. Qed.

(** the same objects *)
Lemma answers_same s s' : sys_heap s' = sys_heap s -> answers_kept s s'.
Proof. intros H. unfold answers_kept, obj. rewrite H. now split. Qed.

Lemma answers_trans s s1 s2 : answers_kept s s1 -> answers_kept s1 s2 -> answers_kept s s2.
Proof. intros [L1 A1] [L2 A2]. split; [lia|]. intros r i st L H. apply A2; [lia|]. now apply A1. Qed.

Lemma on_event_answers s r f : (forall i st, dget (e_state (obj s r)) i = Some st -> dget (e_state (mev (f (obj s r)))) i = Some st) ->
  answers_kept s (sst (on_event s r f)).
Proof.
  intros H. unfold on_event. destruct (f (obj s r)) as [[e n] x]. unfold mev in H. cbn [fst] in H. unfold sst. cbn [fst].
  split; [cbn; now rewrite replace_nth_length|]. intros r' i st L G. rewrite obj_heap, replace_nth_get.
  destruct (Nat.eqb_spec r' r) as [->|N]; cbn [andb]; [|exact G]. destruct (Nat.ltb r (List.length (sys_heap s))); [|exact G].
  unfold get_status in *. cbn [attendee_id rbind] in *. injection G as G. now rewrite (H i st G).
Qed.

Lemma inviting_step cf s o0 o : inviting o0 -> part cf s o0 o ->
  answers_kept s (sst (step cf s o)) /\ Forall no_override (snt (step cf s o)).
Proof.
  intros IN PA.
  assert (C : forall uid sp now, answers_kept s (sst (create_event cf s uid sp now)) /\ Forall no_override (snt (create_event cf s uid sp now))).
  { intros uid sp now. destruct (create_spec cf s uid sp now) as [(r & e & -> & _)|(-> & -> & _)]; [|split; [apply answers_refl|constructor]].
    split; [|repeat constructor]. split; [cbn; rewrite app_length; lia|]. intros r' i st L G. unfold obj, sst in *. cbn [fst sys_heap] in *.
    now rewrite app_nth1. }
  assert (I : (exists r a, o = OSetStatus r a (Some "NEEDS-ACTION"%string) /\ get_status (obj s r) a = Ok None) \/ inviting o).
  { destruct PA; cbn [inviting] in *; try contradiction; eauto. }
  destruct I as [(r & a & -> & G)|I].
  - cbn [step]. destruct a as [i|]; [|discriminate G]. unfold get_status in G. cbn [attendee_id rbind] in G. injection G as G. split.
    + apply on_event_answers. intros j st J. rewrite set_status_eq, set_raw_some by (cbn; auto; congruence). unfold mev. cbn.
      rewrite dget_dset. destruct (String.eqb_spec j i) as [->|]; [congruence|exact J].
    + unfold on_event. rewrite set_status_eq, set_raw_some by (cbn; auto; congruence). cbn. rewrite G. constructor; [split; reflexivity|constructor].
  - destruct o; cbn [inviting step] in *; try contradiction.
    + rewrite drop_sst, drop_snt. apply C.
    + rewrite drop_sst, drop_snt. apply C.
    + unfold delete_event. destruct (ddel _ _); split; try (now apply answers_same); repeat constructor.
    + split.
      * apply on_event_answers. intros i st H.
        apply (invite_pres (fun e => dget (e_state e) i = Some st)); [|exact H]. intros e j He Hj. cbn. rewrite dget_dset.
        destruct (String.eqb_spec i j) as [->|]; [congruence|exact He].
      * unfold on_event.
        assert (X : forall e, Forall no_override (mnotes (invite e l))).
        { clear PA. induction l as [|a l IH]; intros e; cbn [invite]; [constructor|]. destruct a as [i|]; [|constructor].
          unfold get_status. cbn [attendee_id rbind]. destruct (dget (e_state e) i) as [st|] eqn:G; [apply IH|].
          rewrite (invite_step e i G). specialize (IH (with_role (with_state e (dset (e_state e) i "NEEDS-ACTION"%string)) (dset (e_role e) i "REQ-PARTICIPANT"%string))).
          cbn [mbind]. destruct (invite (with_role _ _) l) as [[e2 n2] r2]. unfold mnotes in *. cbn in *. now repeat constructor. }
        specialize (X (obj s r)). destruct (invite (obj s r) l) as [[e n] x]. exact X.
    + split.
      * apply on_event_answers. intros i st H. unfold set_role. destruct (str_in role roles); [|exact H]. destruct a; exact H.
      * unfold on_event. pose proof (set_role_notes (obj s r) a role) as N. destruct (set_role (obj s r) a role) as [[e n] x].
        unfold mnotes in N. cbn in N. subst n. constructor.
    + split; [|constructor]. apply on_event_answers. intros i st H. unfold mev. cbn [fst]. now rewrite allday_state.
    + split; [|constructor]. apply on_event_answers. intros i st H. exact H.
    + split; [now apply answers_same|constructor].
    + split; [now apply answers_same|constructor].
    + unfold add_attendee. destruct (attendee_id a); split; try (now apply answers_same); constructor.
    + unfold remove_attendee. destruct (let* i := attendee_id a in ddel (cal s c) i); split; try (now apply answers_same); constructor.
Qed.

Definition unanswered {M} : M -> system -> list notification -> M -> system -> bool -> Prop :=
  fun _ s n _ s' _ => answers_kept s s' /\ Forall no_override n.

Lemma inviting_leads {M} cf t : (forall k s r x, leads (@unanswered M) k s (t k s r x)) ->
  forall k s o, inviting o -> leads (@unanswered M) k s (step_on t cf k s o).
Proof.
  intros T k s o IN. apply (step_leads cf (fun s o' => part cf s o o') (fun _ => True)); auto.
  - intros k0 s0 b. split; [apply answers_refl|constructor].
  - intros k0 s0 n1 k1 s1 n2 k2 s2 b [A1 F1] [A2 F2]. split; [eapply answers_trans; eauto|]. now apply Forall_app.
  - intros k0 s0 o0 P0 N. split; [|constructor]. now apply (inviting_step cf s0 o).
  - intros k0 s0 o0 s1 x P0 _ E m. destruct (inviting_step cf s0 o o0 IN P0) as [A F]. rewrite E in A, F.
    destruct (T k0 s1 (subject s0 o0) x) as [A' F']. split; [eapply answers_trans; eauto|]. apply (proj2 (Forall_app _ [x] _)). auto.
  - intros k0 s0 r sp s1 v u P0. exfalso. inversion P0; subst; exact IN.
Qed.

(** what every call of kind [Q] does, if deliveries do it, deliveries do *)
Lemma deliver_leads {M} R (Q : op -> Prop) cf (subs : list (watcher M)) : R_refl R -> R_trans R ->
  (forall k s n1 k1 s1 n2 k2 s2 b b', R k s n1 k1 s1 b' -> R k1 s1 n2 k2 s2 b -> R k s (n1 ++ n2) k2 s2 b) ->
  (forall k k0 s n k' s' b, R k s n k' s' b -> R k0 s n k' s' b) ->
  (forall t, (forall k s r x, leads R k s (t k s r x)) -> forall k s o, Q o -> leads R k s (step_on t cf k s o)) ->
  within Q subs -> forall depth k s r x, leads R k s (deliver depth cf subs k s r x).
Proof.
  intros RR RT RC RM H W. induction depth as [|d IH]; intros k s r x; cbn [deliver]; [apply RR|].
  assert (CO : forall p, calls_within Q p -> forall (k : M) s, leads R k s (carry_out (step_on (deliver d cf subs) cf) s p)).
  { induction p as [k0 r1|k0 o0 next IHp]; cbn [calls_within carry_out]; intros WP k1 s1; [apply (RM k0 k1), RR|].
    destruct WP as [W1 W2]. pose proof (H _ IH k0 s1 o0 W1) as A1.
    destruct (step_on (deliver d cf subs) cf k0 s1 o0) as [k2 [[s2 n2] r2]]. pose proof (IHp k2 s2 r2 (W2 _ _ _) k2 s2) as A2.
    destruct (carry_out (step_on (deliver d cf subs) cf) s2 (next k2 s2 r2)) as [k3 [[s3 n3] r3]].
    eapply (RM k0). eapply RC; [exact A1|exact A2]. }
  assert (L : forall l, (forall w, In w l -> In w subs) -> forall k s,
    leads R k s (each_on (step_on (deliver d cf subs) cf) l k s r x)).
  { induction l as [|w l IHl]; intros SUB k0 s0; cbn [each_on]; [apply RR|].
    apply tbind_leads; [exact RT|apply CO, W, SUB; now left|intros u _; apply IHl; intros v Hv; apply SUB; now right]. }
  apply L. auto.
Qed.

(** If neither the call nor any subscriber sets a status, imports or specifies a
    whole event, then whatever they invite, and however that is nested, whoever
    has a status keeps it, and every change that is announced is an invitation of
    somebody who had none. *)
Theorem C124_answers M depth cf (subs : list (watcher M)) k s o k' s' n r : within inviting subs -> inviting o ->
  step_told depth cf subs k s o = (k', (s', n, r)) ->
  (forall r i st, (r < List.length (sys_heap s))%nat ->
     get_status (obj s r) (Some i) = Ok (Some st) -> get_status (obj s' r) (Some i) = Ok (Some st))
  /\ forall u i old new, In (NParticipation u i old new) n -> old = None /\ new = Some "NEEDS-ACTION"%string.
Proof.
  intros W IN E.
  assert (D : forall k s r x, leads (@unanswered M) k s (deliver depth cf subs k s r x)).
  { apply (deliver_leads _ inviting); [| | | |intros t T k0 s0 o0; now apply inviting_leads|exact W].
    - intros k0 s0 b. split; [apply answers_refl|constructor].
    - intros ? ? ? ? ? ? ? ? ? [A1 F1] [A2 F2]. split; [eapply answers_trans; eauto|]. now apply Forall_app.
    - intros ? ? ? ? ? ? ? ? ? ? [A1 F1] [A2 F2]. split; [eapply answers_trans; eauto|]. now apply Forall_app.
    - auto. }
  pose proof (inviting_leads cf _ D k s o IN) as [A F]. unfold step_told in E. rewrite E in A, F.
  split; [intros r1 i st; apply A|]. intros u i old new H. exact (proj1 (Forall_forall _ _) F _ H).
Qed.
(** whoever is invited brings carol along, who has accepted already *)
Definition carol : attendee := Some "carol"%string.
Definition companion {M} : watcher M :=
  fun k _ r x => match x with NParticipation _ _ _ _ => one_call k (OInvite r [carol]) | _ => fine k end.
Example C124_answers_ex : let s := run cf0 (office ++ [OInvite 0 [carol]; OSetStatus 0 carol (Some "DECLINED"%string)]) in
  let m := step_told 3 cf0 [companion] tt s (OInvite 0 [bob; carol]) in
  within inviting ([companion] : list (watcher unit)) /\ srs (snd m) = Ok tt
  /\ snt (snd m) = [NParticipation "a1" "bob" None (Some "NEEDS-ACTION")]%string
  /\ get_status (obj (sst (snd m)) 0) carol = Ok (Some "DECLINED"%string).
Proof.
  split; [intros w k s r x [<-|[]]; destruct x; cbn; auto|]. split; [vm_compute; reflexivity|]. split; vm_compute; reflexivity.
Qed.
Print Assumptions C124_answers.

(** ** Answers given meanwhile *)
(** calls that never put anybody back to NEEDS-ACTION *)
Definition answering (o : op) : Prop :=
  match o with OSetStatus _ _ st => st <> Some "NEEDS-ACTION"%string | OImport _ _ _ _ _ | OSpecify _ _ => False | _ => True end.
Definition asked_once (x : notification) : Prop :=
  match x with NParticipation _ _ old new => new = Some "NEEDS-ACTION"%string -> old = None | _ => True end.

Lemma answering_step cf s o0 o : answering o0 -> part cf s o0 o -> Forall asked_once (snt (step cf s o)).
Proof.
  intros IN PA.
  assert (I : (exists r a st, o0 = o /\ o = OSetStatus r a st) \/ inviting o0).
  { destruct o0; cbn [answering inviting] in *; auto. left. inversion PA; subst; eauto. }
  destruct I as [(r & a & st & -> & ->)|I].
  - cbn [answering step] in *. unfold on_event, set_status.
    destruct (match st with None => true | Some x => str_in x statuses end); [|constructor].
    destruct (get_status (obj s r) a) as [old|y|]; [|constructor..]. destruct (opt_str_eqb old st); [constructor|].
    pose proof (set_raw_notes (obj s r) a st) as N.
    destruct (set_status_raw (obj s r) a st) as [[e1 n1] [u|y|]]; unfold mnotes in N; cbn in N; subst n1; cbn [mbind]; [|constructor..].
    destruct a as [i|]; cbn; [|constructor]. constructor; [|constructor]. cbn. intros X. contradiction.
  - destruct (inviting_step cf s o0 o I PA) as [_ F]. eapply Forall_impl; [|exact F]. intros [u|u|u|u i old new]; cbn; auto. intros [-> _]. auto.
Qed.

(** If neither the call nor any subscriber imports, specifies a whole event or sets the
    status NEEDS-ACTION itself, then whatever is answered while the invitations are made, nobody
    who has a status is put back to NEEDS-ACTION. *)
Theorem C124_asked_once M depth cf (subs : list (watcher M)) k s o k' s' n r : within answering subs -> answering o ->
  step_told depth cf subs k s o = (k', (s', n, r)) ->
  forall u i old, In (NParticipation u i old (Some "NEEDS-ACTION"%string)) n -> old = None.
Proof.
  intros W IN E.
  assert (S : forall t, (forall k s r x, leads (fun (_ : M) _ n _ _ _ => Forall asked_once n) k s (t k s r x)) ->
     forall k s o, answering o -> leads (fun (_ : M) _ n _ _ _ => Forall asked_once n) k s (step_on t cf k s o)).
  { intros t T k0 s0 o0 Ho. apply (step_leads cf (fun s o' => part cf s o0 o') (fun _ => True)); auto.
    - intros ? ? ?. constructor.
    - intros ? ? ? ? ? ? ? ? ? F1 F2. now apply Forall_app.
    - intros ? ? ? ? ?. constructor.
    - intros k1 s1 o1 s2 x P1 _ E1 m. pose proof (answering_step cf s1 o0 o1 Ho P1) as F. rewrite E1 in F.
      apply (proj2 (Forall_app _ [x] _)). split; [exact F|]. apply (T k1 s2 (subject s1 o1) x).
    - intros k1 s1 r1 sp s2 v u P1. exfalso. inversion P1; subst; exact Ho. }
  assert (D : forall k s r x, leads (fun (_ : M) _ n _ _ _ => Forall asked_once n) k s (deliver depth cf subs k s r x)).
  { apply (deliver_leads _ answering); auto.
    - intros ? ? ?. constructor.
    - intros ? ? ? ? ? ? ? ? ? F1 F2. now apply Forall_app.
    - intros ? ? ? ? ? ? ? ? ? ? F1 F2. now apply Forall_app. }
  pose proof (S _ D k s o IN) as F. unfold step_told in E. rewrite E in F.
  intros u i old H. exact (proj1 (Forall_forall _ _) F _ H eq_refl).
Qed.
(** the same attendee listed twice, who accepts at once *)
Example C124_asked_once_ex : let m := step_told 3 cf0 [accept] tt (run cf0 office) (OInvite 0 [bob; bob]) in
  within answering ([accept] : list (watcher unit)) /\ srs (snd m) = Ok tt
  /\ snt (snd m) = [NParticipation "a1" "bob" None (Some "NEEDS-ACTION"); NParticipation "a1" "bob" (Some "NEEDS-ACTION") (Some "ACCEPTED")]%string.
Proof.
  split; [intros w k s r x [<-|[]]; destruct x; cbn; auto; split; [discriminate|auto]|]. split; vm_compute; reflexivity.
Qed.
Print Assumptions C124_asked_once.

(** * C125: a subscriber that raises *)
(** raises [x] whatever it is told *)
Definition objector {M} (x : exn) : watcher M := fun k _ _ _ => Return k (Raise x).

(** as [p], up to the first notification, where it raises *)
Definition stopped {M A} (x : exn) (k : M) (m : tmut M A) (p : smut A) : Prop :=
  (snt p = [] -> m = (k, p)) /\ (forall y n, snt p = y :: n -> exists s', m = (k, (s', [y], Raise x))).

Lemma stopped_unheard {M A} x (k : M) (p : smut A) : snt p = [] -> stopped x k (unheard k p) p.
Proof. intros N. split; [reflexivity|]. rewrite N. discriminate. Qed.

Lemma stopped_bind {M A B} x (k : M) (m : tmut M A) p f (g : system -> A -> smut B) : stopped x k m p ->
  (forall s a, p = (s, [], Ok a) -> stopped x k (f k s a) (g s a)) -> stopped x k (tbind m f) (sbind p g).
Proof.
  intros [H1 H2] F. destruct p as [[s n] r]. unfold snt in H1, H2. cbn [fst snd] in H1, H2. destruct n as [|y n].
  - specialize (H1 eq_refl). subst m. cbn [tbind sbind]. destruct r as [a|e|]; [|now apply stopped_unheard..].
    destruct (F s a eq_refl) as [F1 F2]. destruct (g s a) as [[s2 n2] r2]. unfold stopped, snt in *. cbn [fst snd app] in *. split.
    + intros N. rewrite (F1 N). reflexivity.
    + intros y n N. destruct (F2 y n N) as [s' ->]. now exists s'.
  - destruct (H2 y n eq_refl) as [s' ->]. cbn [tbind]. unfold stopped. destruct r as [a|e|]; cbn [sbind].
    + destruct (g s a) as [[s2 n2] r2]. unfold snt. cbn [fst snd]. split; [discriminate|]. intros y0 n0 N. injection N as <- _. now exists s'.
    + unfold snt. cbn [fst snd]. split; [discriminate|]. intros y0 n0 N. injection N as <- _. now exists s'.
    + unfold snt. cbn [fst snd]. split; [discriminate|]. intros y0 n0 N. injection N as <- _. now exists s'.
Qed.

Definition objecting {M} (x : exn) (t : teller M) : Prop := forall k s r y, t k s r y = (k, (s, [], Raise x)).

Lemma announce_stopped {M} x (t : teller M) k s r y : objecting x t -> stopped x k (announce t k s r y) (s, [y], Ok tt).
Proof.
  intros T. unfold announce. rewrite tbind_ok, T. split; [discriminate|]. intros y0 n N. injection N as <- _. now exists s.
Qed.

Lemma status_stopped {M} x (t : teller M) k s r a st : objecting x t ->
  stopped x k (set_status_on t k s r a st) (on_event s r (fun e => set_status e a st)).
Proof.
  intros T. unfold set_status_on, on_event, set_status.
  destruct (match st with None => true | Some x => str_in x statuses end); [|rewrite with_heap_self; now apply stopped_unheard].
  rewrite tbind_slift. destruct (get_status (obj s r) a) as [old|y|]; [|rewrite with_heap_self; now apply stopped_unheard..].
  destruct (opt_str_eqb old st); [rewrite with_heap_self; now apply stopped_unheard|].
  pose proof (set_raw_attrs (obj s r) a st) as U. pose proof (set_raw_notes (obj s r) a st) as N.
  destruct (set_status_raw (obj s r) a st) as [[e1 n1] [u|y|]]; unfold mnotes in N; cbn in N; subst n1; cbn [mbind];
    [|now apply stopped_unheard..].
  rewrite tbind_ok. destruct a as [i|]; [|now apply stopped_unheard].
  assert (U1 : e_uid (obj (with_heap s (replace_nth r (sys_heap s) e1)) r) = e_uid e1).
  { rewrite obj_heap, replace_nth_get, Nat.eqb_refl. destruct (Nat.ltb_spec r (List.length (sys_heap s))) as [L|L]; [reflexivity|].
    cbn [andb]. unfold mev in U. cbn [fst] in U. destruct U as (U & _). rewrite U. reflexivity. }
  rewrite U1. set (s1 := with_heap s (replace_nth r (sys_heap s) e1)). cbn [app].
  destruct (announce_stopped x t k s1 r (NParticipation (e_uid e1) i old st) T) as [_ X]. destruct (X _ _ eq_refl) as [s' E]. rewrite E.
  split; [discriminate|]. intros y n Y. injection Y as <- _. now exists s'.
Qed.

Lemma role_notes s r a ro : snt (set_role_on s r a ro) = [].
Proof.
  unfold set_role_on, on_event. pose proof (set_role_notes (obj s r) a ro) as N. destruct (set_role (obj s r) a ro) as [[e n] y]. exact N.
Qed.

Lemma invite_stopped {M} x (t : teller M) r l : objecting x t -> forall k s, (r < List.length (sys_heap s))%nat ->
  stopped x k (invite_on t k s r l) (on_event s r (fun e => invite e l)).
Proof.
  intros T. induction l as [|a l IH]; intros k s L; cbn [invite_on invite].
  - unfold on_event. rewrite with_heap_self. now apply stopped_unheard.
  - rewrite tbind_slift. destruct (get_status (obj s r) a) as [[st|]|y|] eqn:G.
    + replace (on_event s r (fun e => match get_status e a with Ok (Some _) => _ | _ => _ end)) with (on_event s r (fun e => invite e l))
        by (unfold on_event; now rewrite G). now apply IH.
    + set (f1 := fun e => mbind (set_status e a (Some "NEEDS-ACTION"%string)) (fun e1 => set_role e1 a "REQ-PARTICIPANT")).
      replace (on_event s r (fun e => match get_status e a with Ok (Some _) => _ | _ => _ end))
        with (sbind (on_event s r f1) (fun s _ => on_event s r (fun e => invite e l)))
        by (rewrite (on_event_then s r _ _ L); unfold on_event; now rewrite G).
      apply stopped_bind.
      * unfold f1. rewrite <- (on_event_then s r _ _ L). apply stopped_bind; [now apply status_stopped|].
        intros s0 u _. apply stopped_unheard, role_notes.
      * intros s0 u E. apply IH. unfold on_event in E. destruct (f1 (obj s r)) as [[e1 n1] r1]. injection E as <- _ _. cbn.
        now rewrite replace_nth_length.
    + unfold on_event. rewrite G, with_heap_self. now apply stopped_unheard.
    + unfold on_event. rewrite G, with_heap_self. now apply stopped_unheard.
Qed.

Lemma create_stopped {M} x (t : teller M) cf k s uid sp now : objecting x t ->
  stopped x k (create_on t cf k s uid sp now) (create_event cf s uid sp now).
Proof.
  intros T. unfold create_on, create_event. set (u := match uid with Some u => u | None => _ end). clearbody u.
  destruct (new_event u sp) as [e|y|]; [|now apply stopped_unheard..].
  rewrite tbind_ok, T. cbn [tbind fst snd]. split; [discriminate|]. intros y n N. injection N as <- _. eexists. reflexivity.
Qed.

Lemma delete_stopped {M} x (t : teller M) k s r : objecting x t -> stopped x k (delete_on t k s r) (delete_event s r).
Proof.
  intros T. unfold delete_on, delete_event. destruct (ddel _ _) as [d|y|]; [|now apply stopped_unheard..].
  rewrite tbind_ok, T. split; [discriminate|]. intros y n N. injection N as <- _. eexists. reflexivity.
Qed.

Lemma slift_stopped {M A} x (k : M) s (a : res A) : stopped x k (unheard k (slift s a)) (slift s a).
Proof. now apply stopped_unheard. Qed.

Lemma import_stopped {M} x (t : teller M) cf k s c parsed p cr sync : objecting x t ->
  stopped x k (import_on t cf k s c parsed p cr sync) (import_cal cf s c parsed p cr sync).
Proof.
  intros T. unfold import_on, import_cal. apply stopped_bind; [apply slift_stopped|]. intros s0 evs _. cbv zeta.
  set (known := nodup string_dec (map e_uid evs)). clearbody known.
  apply stopped_bind; [apply slift_stopped|]. intros s1 [vs|] _; [|now apply stopped_unheard].
  assert (L : forall l k s, stopped x k (import_loop_on t cf k s c known l) (import_loop cf s c known l)).
  { induction l as [|v l IH]; intros k0 s2; cbn [import_loop_on import_loop]; [now apply stopped_unheard|].
    apply stopped_bind.
    - unfold import_one_on, import_one. destruct (v_uid v) as [u|]; [|now apply stopped_unheard]. destruct (str_in u known).
      + apply stopped_bind; [|intros; now apply stopped_unheard]. unfold import_existing_on, import_existing.
        apply stopped_bind; [apply slift_stopped|]. intros s3 r _. apply stopped_bind; [apply slift_stopped|]. intros s4 sp _.
        apply stopped_bind; [apply slift_stopped|]. intros s5 [|] _; [|now apply stopped_unheard].
        apply stopped_bind; [|intros; now apply announce_stopped]. apply stopped_unheard. unfold on_event.
        pose proof (set_on_object_notes sp (obj s5 r)) as N. destruct (set_on_object sp (obj s5 r)) as [[e n] y]. exact N.
      + destruct (has_event s2 u); [now apply stopped_unheard|]. apply stopped_bind; [|intros; now apply stopped_unheard].
        unfold import_new_on, import_new. apply stopped_bind; [apply slift_stopped|]. intros s3 sp _.
        apply stopped_bind; [now apply create_stopped|]. intros. now apply stopped_unheard.
    - intros s3 u _. apply stopped_bind; [apply IH|]. intros. now apply stopped_unheard. }
  apply stopped_bind; [apply L|]. intros s2 ical _. destruct sync; [|now apply stopped_unheard].
  generalize (filter (fun u => negb (str_in u ical)) known). intros uids. revert s2.
  induction uids as [|u uids IH]; intros s2; cbn [delete_loop_on delete_loop]; [now apply stopped_unheard|].
  apply stopped_bind; [apply slift_stopped|]. intros s3 r _. apply stopped_bind; [now apply delete_stopped|]. intros. apply IH.
Qed.

(** If the first subscriber raises, a call without notifications is as usual;
    any other ends with that exception at its first notification, and no other
    subscriber is called. *)
Theorem C125_stops M depth cf x (others : list (watcher M)) k s o s' n r : refers_to_object s o -> step cf s o = (s', n, r) ->
  let m := step_told (S depth) cf (objector x :: others) k s o in
  match n with
  | [] => m = (k, (s', [], r))
  | y :: _ => exists s1, m = (k, (s1, [y], Raise x))
  end.
Proof.
  intros RO E m.
  assert (T : objecting x (deliver (S depth) cf (objector x :: others))) by (intros ? ? ? ?; reflexivity).
  assert (X : stopped x k m (step cf s o)).
  { unfold m, step_told. set (t := deliver (S depth) cf (objector x :: others)) in *. clearbody t.
    assert (D : forall (m : tmut M nat) p, stopped x k m p -> stopped x k (tbind m (fun k s _ => unheard k (sret s tt))) (drop p)).
    { intros m0 p H. replace (drop p) with (sbind p (fun s _ => sret s tt)).
      - apply stopped_bind; [exact H|]. intros. now apply stopped_unheard.
      - destruct p as [[s0 n0] [a|y|]]; cbn; [now rewrite app_nil_r|reflexivity..]. }
    destruct o; cbn [step_on step].
    - now apply D, create_stopped.
    - now apply D, create_stopped.
    - now apply delete_stopped.
    - now apply invite_stopped.
    - now apply status_stopped.
    - apply stopped_unheard. exact (role_notes s r0 a role).
    - now apply stopped_unheard.
    - now apply stopped_unheard.
    - apply stopped_unheard. unfold on_event. pose proof (set_on_object_notes sp (obj s r0)) as N.
      destruct (set_on_object sp (obj s r0)) as [[e0 n0] y]. exact N.
    - now apply stopped_unheard.
    - now apply stopped_unheard.
    - apply stopped_unheard. unfold add_attendee. now destruct (attendee_id a).
    - apply stopped_unheard. unfold remove_attendee. now destruct (let* i := attendee_id a in ddel (cal s c) i).
    - now apply import_stopped. }
  rewrite E in X. destruct X as [X1 X2]. unfold snt in X1, X2. cbn [fst snd] in X1, X2.
  destruct n as [|y n]; [exact (X1 eq_refl)|exact (X2 y n eq_refl)].
Qed.
Example C125_stops_ex : let s := run cf0 office in
  refers_to_object s (OInvite 0 [bob; carol])
  /\ snt (step cf0 s (OInvite 0 [bob; carol]))
     = [NParticipation "a1" "bob" None (Some "NEEDS-ACTION"); NParticipation "a1" "carol" None (Some "NEEDS-ACTION")]%string
  /\ exists s1, step_told 1 cf0 [objector ValueError; accept] tt s (OInvite 0 [bob; carol])
       = (tt, (s1, [NParticipation "a1" "bob" None (Some "NEEDS-ACTION")]%string, Raise ValueError)).
Proof.
  split; [vm_compute; repeat constructor|]. split; [vm_compute; reflexivity|]. eexists. vm_compute. reflexivity.
Qed.
Print Assumptions C125_stops.

(** The change whose notification was objected to is made nevertheless: the
    caller of createEvent gets an exception and no event, but the event is stored. *)
Theorem C125_created M depth cf x (others : list (watcher M)) k s uid sp now s' n : 
  step cf s (OCreate uid sp now) = (s', n, Ok tt) ->
  step_told (S depth) cf (objector x :: others) k s (OCreate uid sp now) = (k, (s', n, Raise x))
  /\ exists u, n = [NCreated u] /\ get_event s' u = Ok (List.length (sys_heap s)).
Proof.
  cbn [step]. unfold step_told, step_on, create_on, create_event. set (u := match uid with Some u => u | None => _ end). clearbody u.
  destruct (new_event u sp) as [e|y|]; cbn [drop]; intros E; [|discriminate E..]. injection E as <- <-.
  rewrite tbind_ok. split; [reflexivity|]. exists u. split; [reflexivity|]. unfold get_event. cbn [sys_store]. now rewrite dget_dset, String.eqb_refl.
Qed.
Example C125_created_ex : exists s', step cf0 (run cf0 office) a_plan = (s', [NCreated "n1"%string], Ok tt).
Proof. eexists. vm_compute. reflexivity. Qed.
Print Assumptions C125_created.

(** An invitation that is objected to leaves the attendee invited but without a
    role; removing them then fails with KeyError, though they are gone afterwards. *)
Theorem C125_half M depth cf x (others : list (watcher M)) k s r i l : (r < List.length (sys_heap s))%nat -> reachable cf s ->
  get_status (obj s r) (Some i) = Ok None -> get_role (obj s r) (Some i) = Ok None ->
  exists s', step_told (S depth) cf (objector x :: others) k s (OInvite r (Some i :: l))
    = (k, (s', [NParticipation (e_uid (obj s r)) i None (Some "NEEDS-ACTION"%string)], Raise x))
  /\ get_status (obj s' r) (Some i) = Ok (Some "NEEDS-ACTION"%string) /\ get_role (obj s' r) (Some i) = Ok None
  /\ exists s2, step cf s' (OSetStatus r (Some i) None) = (s2, [], Raise KeyError)
     /\ get_status (obj s2 r) (Some i) = Ok None.
Proof.
  intros L RE G R. assert (G' := G). unfold get_status in G'. cbn [attendee_id rbind] in G'. injection G' as G'.
  set (e1 := with_state (obj s r) (dset (e_state (obj s r)) i "NEEDS-ACTION"%string)).
  set (s' := with_heap s (replace_nth r (sys_heap s) e1)).
  assert (O : obj s' r = e1).
  { unfold s'. rewrite obj_heap, replace_nth_get, Nat.eqb_refl. apply Nat.ltb_lt in L. now rewrite L. }
  exists s'. split; [|split; [|split]].
  - unfold step_told. cbn [step_on invite_on]. rewrite tbind_slift, G. unfold set_status_on.
    change (str_in "NEEDS-ACTION" statuses) with true. cbv match. rewrite tbind_slift, G. cbn [opt_str_eqb].
    unfold on_event. rewrite set_raw_some. fold e1. fold s'. rewrite tbind_ok. unfold announce. rewrite tbind_ok, O. reflexivity.
  - rewrite O. unfold get_status. cbn [attendee_id rbind]. unfold e1. cbn [e_state with_state]. now rewrite dget_dset, String.eqb_refl.
  - rewrite O. exact R.
  - cbn [step]. unfold on_event. rewrite O. unfold get_role in R. cbn [attendee_id rbind] in R. injection R as R.
    assert (D : dget (e_state e1) i = Some "NEEDS-ACTION"%string) by (unfold e1; cbn [e_state with_state]; now rewrite dget_dset, String.eqb_refl).
    rewrite set_status_eq; [|exact I|rewrite D; discriminate]. unfold set_status_raw. cbn [attendee_id]. unfold ddel. rewrite D. cbn [e_role with_state e1].
    rewrite R. cbn [mbind]. eexists. split; [reflexivity|]. rewrite obj_heap, replace_nth_get, Nat.eqb_refl. unfold s'. cbn [sys_heap with_heap].
    rewrite replace_nth_length. apply Nat.ltb_lt in L. rewrite L. cbn [andb]. unfold get_status. cbn [attendee_id rbind e_state with_state].
    rewrite dget_drem, String.eqb_refl; [reflexivity|]. unfold e1. cbn [e_state with_state]. apply dset_nodup.
    apply (reachable_dicts_ok cf s r RE).
Qed.
Example C125_half_ex : let s := run cf0 office in
  (0 < List.length (sys_heap s))%nat /\ reachable cf0 s /\ get_status (obj s 0) bob = Ok None /\ get_role (obj s 0) bob = Ok None.
Proof. split; [vm_compute; repeat constructor|]. split; [apply run_reachable|]. split; vm_compute; reflexivity. Qed.
Print Assumptions C125_half.
