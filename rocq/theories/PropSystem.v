(** Properties of whole histories: attendance, the storage as a map, generated
    ids, and what an import may touch: C38-C40, C42-C46, C53, C60. *)
From Verif Require Import Base PyDate DateFacts Recurrent CalTime TimeProofs Event Storage ICal System
  QueryProofs BlockProofs EventProofs SpecProofs SystemProofs StoreProofs IdProofs ImportProofs PropEvent.
From Coq Require Import ZifyBool.
Ltac Zify.zify_post_hook ::= Z.div_mod_to_equations.
Local Opaque ord2ymd year_of month_of day_of ymd2ord days_in_month is_leap.

(** ** Material for the examples *)
Definition cf0 : config := mkConfig "store" "example.com" (fun _ => 0).
Definition run (cf : config) (ops : list op) : system := fold_left (fun s o => sst (step cf s o)) ops init.

Lemma fold_path cf (ok : system -> op -> Prop) ops : forall s, path cf ok s ->
  (forall s o, In o ops -> ok s o) -> path cf ok (fold_left (fun s o => sst (step cf s o)) ops s).
Proof.
  induction ops as [|o ops IH]; intros s P H; [exact P|]. cbn [fold_left]. apply IH.
  - apply path_step; [exact P|]. apply H. now left.
  - intros s1 o1 H1. apply H. now right.
Qed.

Lemma run_path cf (ok : system -> op -> Prop) ops : (forall s o, In o ops -> ok s o) -> path cf ok (run cf ops).
Proof. intros H. apply fold_path; [constructor|exact H]. Qed.

Lemma run_reachable cf ops : reachable cf (run cf ops).
Proof. apply (path_history cf (fun _ _ => True)). apply run_path. intros; exact I. Qed.

Definition ann : attendee := Some "ann"%string.
Definition bob : attendee := Some "bob"%string.

(** a VEVENT for a meeting of one hour *)
Definition x_event (uid : string) (day : Z) (title : string) (atts : list (string * option string * option string)) : vevent :=
  mkV (Some uid) (Some (IFloat (p_at day 9))) (Some (IFloat (p_at day 10))) None (Some title) None None None None
      atts [] None None None None.

(** two attendees, a calendar of ann's, and events of both *)
Definition office : list op :=
  [OAttendee "ann" "Ann" "INDIVIDUAL"; OAttendee "bob" "Bob" "INDIVIDUAL"; OCalendar; OAddAttendee 0 ann;
   OCreate (Some "a1") (p_spec (p_at 732500 9) (Some HOUR) false ann []) 0;
   OCreate (Some "a2") (p_spec (p_at 732501 9) (Some HOUR) false ann [(bob, "CHAIR", Some "TENTATIVE")]) 0;
   OCreate (Some "b1") (p_spec (p_at 732501 9) (Some HOUR) false bob []) 0]%string.

(** * C38: an attendee can always be removed from an event *)
(** Refuted: a status may be given to somebody who was never invited; removing
    them then raises KeyError. *)
Theorem C38_remove_refuted : exists s r i st, reachable cf0 s /\ (r < List.length (sys_heap s))%nat
  /\ get_status (obj s r) (Some i) = Ok (Some st)
  /\ srs (step cf0 s (OSetStatus r (Some i) None)) = Raise KeyError.
Proof.
  exists (run cf0 (office ++ [OSetStatus 0 bob (Some "ACCEPTED"%string)])), O, "bob"%string, "ACCEPTED"%string.
  split; [apply run_reachable|]. vm_compute. repeat split. lia.
Qed.
Print Assumptions C38_remove_refuted.

(** It works in every history in which a status is only ever set for somebody
    who was invited (or given a role) before. *)
Theorem C38_remove_partial cf s r i st : path cf invited_only s ->
  get_status (obj s r) (Some i) = Ok (Some st) ->
  exists e' n, set_status (obj s r) (Some i) None = (e', n, Ok tt)
    /\ get_status e' (Some i) = Ok None /\ get_role e' (Some i) = Ok None /\ has_attendee e' (Some i) = Ok false
    /\ (forall status role l, get_attendee_ids e' status role = Ok l -> ~ In i l)
    /\ (forall j, j <> i -> get_status e' (Some j) = get_status (obj s r) (Some j)
                         /\ get_role e' (Some j) = get_role (obj s r) (Some j)).
Proof.
  intros P S. assert (C : covered (obj s r)) by (apply (obj_P keeps_covered); exact (invited_covered cf s P)).
  destruct C as [D R]. unfold get_status in S. cbn [attendee_id rbind] in S.
  assert (S' : dget (e_state (obj s r)) i = Some st) by congruence.
  assert (NS : dget (e_state (obj s r)) i <> None) by congruence.
  rewrite set_status_none by auto. do 2 eexists. split; [reflexivity|].
  assert (DD := D). destruct D as [D1 D2]. unfold has_attendee, get_status, get_role. cbn [attendee_id rbind e_state e_role with_state with_role].
  rewrite !dget_drem, String.eqb_refl by assumption. repeat (split; [reflexivity|]). split.
  - intros status role l E. apply attendee_ids_spec in E; [|split; cbn; now apply drem_nodup].
    destruct E as [_ E]. intros H. apply E in H as (st' & H & _). cbn in H.
    rewrite dget_drem, String.eqb_refl in H by assumption. discriminate.
  - intros j N. rewrite !dget_drem by assumption. destruct (String.eqb_spec j i); [contradiction|]. auto.
Qed.
Print Assumptions C38_remove_partial.

Example C38_case : path cf0 invited_only (run cf0 office)
  /\ get_status (obj (run cf0 office) 1) bob = Ok (Some "TENTATIVE"%string)
  /\ get_role (obj (run cf0 office) 1) bob = Ok (Some "CHAIR"%string).
Proof.
  split; [|split; vm_compute; reflexivity]. apply run_path. intros s o H. cbn in H.
  repeat (destruct H as [<-|H]; [exact I|]). destruct H.
Qed.

(** * C39: attendee listings are consistent *)
(** what is listed, in every history *)
Theorem C39_listing cf s r status role l : reachable cf s -> get_attendee_ids (obj s r) status role = Ok l ->
  NoDup l
  /\ forall i, In i l <->
       has_attendee (obj s r) (Some i) = Ok true
       /\ (forall st, status = Some st -> get_status (obj s r) (Some i) = Ok (Some st))
       /\ (forall ro, role = Some ro -> get_role (obj s r) (Some i) = Ok (Some ro)).
Proof.
  intros H E. apply attendee_ids_spec in E; [|eapply reachable_dicts_ok; exact H]. destruct E as [E1 E2].
  split; [exact E1|]. intros i. rewrite E2. unfold has_attendee, get_status, get_role. cbn [attendee_id rbind]. split.
  - intros (st & H1 & H2 & H3). rewrite H1. split; [reflexivity|]. split; [|intros ro X; now rewrite (H3 ro X)].
    intros s0 X. now rewrite (H2 s0 X).
  - intros (H1 & H2 & H3). destruct (dget (e_state (obj s r)) i) as [st|]; [|discriminate].
    exists st. split; [reflexivity|]. split; [intros s0 X; specialize (H2 s0 X); congruence|].
    intros ro X. specialize (H3 ro X). congruence.
Qed.
Print Assumptions C39_listing.

(** without a role it never raises *)
Theorem C39_listing_total cf s r status : reachable cf s -> exists l, get_attendee_ids (obj s r) status None = Ok l.
Proof. intros H. apply attendee_ids_total; [eapply reachable_dicts_ok; exact H|now right]. Qed.
Print Assumptions C39_listing_total.

(** with a role it may raise... *)
Theorem C39_listing_role_refuted : exists s r role, reachable cf0 s /\ (r < List.length (sys_heap s))%nat
  /\ get_attendee_ids (obj s r) None (Some role) = Raise KeyError.
Proof.
  exists (run cf0 (office ++ [OSetStatus 0 bob (Some "ACCEPTED"%string)])), O, "CHAIR"%string.
  split; [apply run_reachable|]. vm_compute. split; [lia|reflexivity].
Qed.
Print Assumptions C39_listing_role_refuted.

(** ... but not if statuses are only set for those invited before *)
Theorem C39_listing_role_partial cf s r status role : path cf invited_only s ->
  exists l, get_attendee_ids (obj s r) status role = Ok l.
Proof.
  intros P. destruct (obj_P keeps_covered s r (invited_covered cf s P)) as [D R].
  apply attendee_ids_total; [exact D|now left].
Qed.
Print Assumptions C39_listing_role_partial.

Example C39_case : reachable cf0 (run cf0 office)
  /\ get_attendee_ids (obj (run cf0 office) 1) None None = Ok ["ann"; "bob"]%string
  /\ get_attendee_ids (obj (run cf0 office) 1) None (Some "CHAIR"%string) = Ok ["bob"%string]
  /\ get_attendee_ids (obj (run cf0 office) 1) (Some "ACCEPTED"%string) (Some "CHAIR"%string) = Ok [].
Proof. split; [apply run_reachable|]. vm_compute. auto. Qed.

(** * C40: statuses and roles stay within the documented values *)
Theorem C40_roles cf s r i ro : reachable cf s -> get_role (obj s r) (Some i) = Ok (Some ro) ->
  In ro ["CHAIR"; "REQ-PARTICIPANT"; "OPT-PARTICIPANT"; "NON-PARTICIPANT"]%string.
Proof.
  intros H E. destruct (reachable_roles_ok cf s r H) as [_ R]. apply (R i). unfold get_role in E. cbn in E. congruence.
Qed.
Print Assumptions C40_roles.

(** Refuted for statuses: those given in a specification or an imported text are
    stored unchecked. *)
Theorem C40_status_refuted : exists s r i st, reachable cf0 s /\ (r < List.length (sys_heap s))%nat
  /\ get_status (obj s r) (Some i) = Ok (Some st)
  /\ ~ In st ["NEEDS-ACTION"; "ACCEPTED"; "DECLINED"; "TENTATIVE"; "DELEGATED"]%string.
Proof.
  exists (run cf0 (office ++ [OImport 0 (Ok (Some [x_event "n" 732502 "New" [("bob", Some "MAYBE", None)]%string]))
                                (None, None) None false])), 3%nat, "bob"%string, "MAYBE"%string.
  split; [apply run_reachable|]. vm_compute. split; [lia|]. split; [reflexivity|]. intuition discriminate.
Qed.
Print Assumptions C40_status_refuted.

(** Documented when every specification and every imported component names only
    documented statuses. *)
Theorem C40_status_partial cf s r i st : path cf (fun _ o => careful_statuses o) s ->
  get_status (obj s r) (Some i) = Ok (Some st) ->
  In st ["NEEDS-ACTION"; "ACCEPTED"; "DECLINED"; "TENTATIVE"; "DELEGATED"]%string.
Proof.
  intros P E. destruct (obj_P keeps_statuses s r (careful_statuses_ok cf s P)) as [_ R].
  apply (R i). unfold get_status in E. cbn in E. congruence.
Qed.
Print Assumptions C40_status_partial.

Example C40_case : let ops := office ++ [OImport 0 (Ok (Some [x_event "n" 732502 "New" [("bob", Some "DECLINED", Some "CHAIR")]%string]))
                                (None, None) None false] in
  path cf0 (fun _ o => careful_statuses o) (run cf0 ops)
  /\ get_status (obj (run cf0 ops) 3) bob = Ok (Some "DECLINED"%string)
  /\ get_role (obj (run cf0 ops) 3) bob = Ok (Some "CHAIR"%string).
Proof.
  cbv zeta. split; [|split; vm_compute; reflexivity]. apply run_path. intros s o H. cbn in H.
  repeat (destruct H as [<-|H]; [first [exact I | intros v i st ro [<-|[]] [X|[]]; inversion X; cbn; tauto
    | intros a ro st [X|[]]; inversion X; cbn; tauto | intros a ro st []; fail]|]). destruct H.
Qed.

(** * C42: the storage behaves like a map from unique id to event *)
(** [book] is a ledger kept from the notifications alone: each creation notice
    counts one more event and makes the id stand for it, each deletion notice
    makes the id stand for nothing. *)
Theorem C42_map cf s h uid : history cf s h ->
  (get_event s uid = match snd (book (O, fun _ => None) (all_notes h)) uid with Some r => Ok r | None => Raise KeyError end)
  /\ (has_event s uid = true <-> exists r, get_event s uid = Ok r)
  /\ (forall r, get_event s uid = Ok r -> (r < List.length (sys_heap s))%nat /\ e_uid (obj s r) = uid
        /\ forall r', (r' < List.length (sys_heap s))%nat -> e_uid (obj s r') = uid -> (r' <= r)%nat).
Proof.
  intros H. destruct (history_booked cf s h H) as [_ B]. destruct (history_tracks cf s h H) as [[_ I] _].
  unfold has_event, get_event. rewrite <- B. split; [reflexivity|]. destruct (dget (sys_store s) uid) as [r|] eqn:E.
  - split; [split; eauto|]. intros r' X. assert (r' = r) by congruence. subst. now apply I.
  - split; [split; [discriminate|intros [r X]; discriminate]|]. discriminate.
Qed.
Print Assumptions C42_map.

Example C42_map_case : exists h, history cf0 (run cf0 (office ++ [ODelete 1; OCreate (Some "a1"%string) (p_spec (p_at 732500 9) None false bob []) 0])) h
  /\ get_event (run cf0 (office ++ [ODelete 1; OCreate (Some "a1"%string) (p_spec (p_at 732500 9) None false bob []) 0])) "a1" = Ok 3%nat.
Proof.
  match goal with |- exists h, history cf0 (run cf0 ?o) h /\ _ => destruct (run_reachable cf0 o) as [h H] end.
  exists h. split; [exact H|]. vm_compute. reflexivity.
Qed.

(** creating *)
Theorem C42_create cf s uid sp now :
  let '(s', n, r) := step cf s (OCreate (Some uid) sp now) in
  (r = Ok tt /\ n = [NCreated uid]
   /\ (exists k e, get_event s' uid = Ok k /\ k = List.length (sys_heap s) /\ obj s' k = e /\ new_event uid sp = Ok e
                   /\ e_uid e = uid /\ List.length (sys_heap s') = S k)
   /\ (forall u, u <> uid -> get_event s' u = get_event s u)
   /\ (forall k, (k < List.length (sys_heap s))%nat -> obj s' k = obj s k))
  \/ (r <> Ok tt /\ n = [] /\ s' = s).
Proof.
  cbn [step]. unfold drop. destruct (create_spec cf s (Some uid) sp now) as [(r & e & -> & -> & E & U)|(A & B & C)].
  - left. split; [reflexivity|]. split; [reflexivity|]. split; [|split].
    + exists (List.length (sys_heap s)), e. unfold get_event, obj. cbn. rewrite dget_dset, String.eqb_refl, app_length.
      rewrite app_nth2, Nat.sub_diag by lia. repeat (split; [assumption || reflexivity|]). cbn. lia.
    + intros u N. unfold get_event. cbn. rewrite dget_dset. destruct (String.eqb_spec u uid); [contradiction|reflexivity].
    + intros k Hk. unfold obj. cbn. now apply app_obj.
  - destruct (create_event cf s (Some uid) sp now) as [[s' n] r]. unfold sst, snt, srs in *. cbn in A, B, C.
    right. split; [|auto]. destruct r as [x| |]; [now elim (C x)|discriminate|discriminate].
Qed.
Print Assumptions C42_create.

(** a specification that can be applied does create an event *)
Theorem C42_create_succeeds cf s uid sp now : entries_fine (s_attendees sp) ->
  snd (step cf s (OCreate uid sp now)) = Ok tt.
Proof.
  intros F. cbn [step]. unfold drop, create_event.
  match goal with |- context [new_event ?u sp] => generalize u end. intros u. unfold new_event.
  rewrite set_on_object_eq.
  match goal with |- context [set_attendees ?e _] => generalize e end. intros e.
  assert (X : mres (set_attendees e (s_attendees sp)) = Ok tt).
  { revert e F. generalize (s_attendees sp). induction l as [|[[a ro] st] l IH]; intros e F; [reflexivity|]. cbn [set_attendees].
    destruct (F a ro st (or_introl eq_refl)) as (i & x & -> & -> & R). fold (entry_step e (Some i) ro (Some x)).
    rewrite entry_step_ok by exact R. rewrite mbind_ok. unfold mres at 1. cbn [snd]. apply IH. intros a' ro' st' H. apply (F a' ro' st'). now right. }
  unfold mres in X. destruct (set_attendees e (s_attendees sp)) as [[e1 n1] r1]. cbn in X. subst. reflexivity.
Qed.
Print Assumptions C42_create_succeeds.

(** deleting *)
Theorem C42_delete cf s k : reachable cf s ->
  let u := e_uid (obj s k) in
  let '(s', n, r) := step cf s (ODelete k) in
  (has_event s u = true /\ r = Ok tt /\ n = [NDeleted u] /\ get_event s' u = Raise KeyError
   /\ (forall v, v <> u -> get_event s' v = get_event s v) /\ (forall j, obj s' j = obj s j))
  \/ (has_event s u = false /\ r = Raise KeyError /\ n = [] /\ s' = s).
Proof.
  intros R. destruct (reachable_store cf s R) as [N _]. cbv zeta. cbn [step]. unfold delete_event, ddel. rewrite has_event_dget.
  destruct (dget (sys_store s) (e_uid (obj s k))) as [j|] eqn:D.
  - left. repeat (split; [reflexivity|]). unfold get_event. cbn. split; [now rewrite dget_drem, String.eqb_refl|].
    split; [|reflexivity]. intros v X. rewrite dget_drem by exact N. destruct (String.eqb_spec v (e_uid (obj s k))); [contradiction|reflexivity].
  - right. auto.
Qed.
Print Assumptions C42_delete.

Example C42_delete_case : reachable cf0 (run cf0 office)
  /\ snd (step cf0 (run cf0 office) (ODelete 1)) = Ok tt
  /\ snd (step cf0 (run cf0 (office ++ [ODelete 1])) (ODelete 1)) = Raise KeyError.
Proof. split; [apply run_reachable|]. vm_compute. auto. Qed.

(** nothing but creating, deleting and importing changes the storage *)
Theorem C42_others cf s o : match o with OCreate _ _ _ | OAttendeeCreate _ _ _ | ODelete _ | OImport _ _ _ _ _ => False | _ => True end ->
  (forall u, get_event (sst (step cf s o)) u = get_event s u)
  /\ (forall u, ~ In (NCreated u) (snt (step cf s o)) /\ ~ In (NDeleted u) (snt (step cf s o))).
Proof.
  intros H. split.
  - intros u. unfold get_event. destruct o; try contradiction; cbn [step]; rewrite ?on_event_store; try reflexivity.
    + unfold add_attendee. now destruct a.
    + unfold remove_attendee. now destruct (let* i := attendee_id a in _).
  - assert (Q : quiet (snt (step cf s o))).
    { assert (OE : forall r f, quiet (mnotes (f (obj s r))) -> quiet (snt (on_event s r f))).
      { intros r f. unfold on_event, mnotes, snt. now destruct (f (obj s r)) as [[e n] x]. }
      destruct o; try contradiction; cbn [step]; try apply OE; try constructor.
      - eapply replays_quiet, invite_replays.
      - apply set_status_quiet.
      - rewrite set_role_notes. constructor.
      - rewrite set_on_object_notes. constructor.
      - unfold add_attendee. destruct a; constructor.
      - unfold remove_attendee. destruct (let* i := attendee_id a in _); constructor. }
    intros u. split; intros X; apply (proj1 (Forall_forall _ _) Q) in X; exact X.
Qed.
Print Assumptions C42_others.

(** * C60: deleting an event object deletes that event *)
(** Refuted: deleting goes by the object's unique id, so deleting through an
    object that was replaced removes its successor. *)
Theorem C60_delete_refuted : exists s k k', reachable cf0 s /\ k <> k'
  /\ get_event s (e_uid (obj s k)) = Ok k'
  /\ srs (step cf0 s (ODelete k)) = Ok tt
  /\ get_event (sst (step cf0 s (ODelete k))) (e_uid (obj s k')) = Raise KeyError.
Proof.
  exists (run cf0 (office ++ [ODelete 1; OCreate (Some "a2"%string) (p_spec (p_at 732500 9) None false bob []) 0])), 1%nat, 3%nat.
  split; [apply run_reachable|]. vm_compute. repeat split. discriminate.
Qed.
Print Assumptions C60_delete_refuted.

(** It removes that event and no other when the object is the stored one; in
    particular in every history in which no id is used twice.  Missing: objects
    whose id has been used again. *)
Theorem C60_delete_partial cf s k : reachable cf s -> (k < List.length (sys_heap s))%nat ->
  (forall j, (j < List.length (sys_heap s))%nat -> e_uid (obj s j) = e_uid (obj s k) -> j = k) ->
  let '(s', n, r) := step cf s (ODelete k) in
  (forall u j, get_event s u = Ok j -> j <> k -> get_event s' u = Ok j)
  /\ (forall u, get_event s' u <> Ok k)
  /\ (r = Ok tt <-> exists u, get_event s u = Ok k).
Proof.
  intros R Hk U. destruct (reachable_store cf s R) as [N I]. cbn [step]. unfold delete_event, ddel, get_event.
  destruct (dget (sys_store s) (e_uid (obj s k))) as [j|] eqn:D.
  - destruct (I _ _ D) as (I1 & I2 & _). assert (j = k) by (apply U; auto). subst j. cbn.
    split; [|split].
    + intros u j E NE. rewrite dget_drem by exact N. destruct (String.eqb_spec u (e_uid (obj s k))) as [->|X]; [|exact E].
      rewrite D in E. congruence.
    + intros u. rewrite dget_drem by exact N. destruct (String.eqb_spec u (e_uid (obj s k))) as [->|X]; [discriminate|].
      destruct (dget (sys_store s) u) as [j|] eqn:E; [|discriminate]. intros Y. assert (j = k) by congruence. subst.
      destruct (I _ _ E) as (_ & I3 & _). congruence.
    + split; [|auto]. intros _. exists (e_uid (obj s k)). now rewrite D.
  - cbn. split; [auto|]. assert (X : forall u, dget (sys_store s) u <> Some k).
    { intros u E. destruct (I _ _ E) as (_ & I3 & _). rewrite I3 in D. congruence. }
    split.
    + intros u. specialize (X u). destruct (dget (sys_store s) u); congruence.
    + split; [discriminate|]. intros [u E]. specialize (X u). destruct (dget (sys_store s) u); congruence.
Qed.
Print Assumptions C60_delete_partial.

Example C60_case : reachable cf0 (run cf0 office)
  /\ (forall j, (j < List.length (sys_heap (run cf0 office)))%nat ->
        e_uid (obj (run cf0 office) j) = e_uid (obj (run cf0 office) 1) -> j = 1%nat)
  /\ get_event (run cf0 office) "a2" = Ok 1%nat.
Proof.
  split; [apply run_reachable|]. split; [|vm_compute; reflexivity].
  intros j Hj. assert (L : List.length (sys_heap (run cf0 office)) = 3%nat) by (vm_compute; reflexivity). rewrite L in Hj.
  destruct j as [|[|[|j]]]; [vm_compute; discriminate|reflexivity|vm_compute; discriminate|lia].
Qed.

(** * C43: generated unique ids are unique *)
(** Refuted: the id is made of the time in seconds and the number of stored
    events, which repeats after a deletion. *)
Theorem C43_unique_refuted : exists s sp now u k k', reachable cf0 s /\ k <> k'
  /\ get_event s u = Ok k
  /\ snt (step cf0 s (OCreate None sp now)) = [NCreated u]
  /\ get_event (sst (step cf0 s (OCreate None sp now))) u = Ok k'.
Proof.
  set (sp := p_spec (p_at 732500 9) (Some HOUR) false ann []). set (t := p_at 732500 8).
  exists (run cf0 [OCreate None sp t; OCreate None sp t; ODelete 0]), sp, (t + 999999).
  exists (generated_id cf0 t 1), 1%nat, 2%nat.
  split; [apply run_reachable|]. split; [discriminate|]. vm_compute. auto.
Qed.
Print Assumptions C43_unique_refuted.

(** [foreign cf u]: no time and number make the storage generate the id [u] *)
Lemma short_foreign cf u : (String.length u < 16)%nat -> foreign cf u.
Proof.
  intros L t n ->. unfold generated_id in L. rewrite !app_length_s, iso8601_length in L. cbn in L. lia.
Qed.

(** Unique as long as nothing is deleted (and explicit ids are not of the
    generated form), whatever the clock does... *)
Theorem C43_unique_without_deletion_partial cf s sp now : path cf (fun _ o => only_adds cf o) s ->
  (forall u k, get_event s u = Ok k -> get_event (sst (step cf s (OCreate None sp now))) u = Ok k)
  /\ forall u, In (NCreated u) (snt (step cf s (OCreate None sp now))) -> has_event s u = false.
Proof.
  intros P. cbn [step]. rewrite drop_sst, drop_snt. assert (F := ids_below_fresh cf _ now (path_ids_below cf s P)). split.
  - now apply fresh_create.
  - intros u H. destruct (create_spec cf s None sp now) as [(r & e & E & _)|(_ & E & _)].
    + rewrite E in H. destruct H as [H|[]]. injection H as <-. rewrite has_event_dget, F. reflexivity.
    + rewrite E in H. destruct H.
Qed.
Print Assumptions C43_unique_without_deletion_partial.

(** ... and with deletions if events without an explicit id are created in
    different seconds of an advancing clock.  Missing: several creations within
    one second interleaved with deletions; explicit ids of the generated form. *)
Theorem C43_unique_by_time_partial cf s ts sp now : timed cf s ts -> newer now ts ->
  (forall u k, get_event s u = Ok k -> get_event (sst (step cf s (OCreate None sp now))) u = Ok k)
  /\ forall u, In (NCreated u) (snt (step cf s (OCreate None sp now))) -> has_event s u = false.
Proof.
  intros T N. cbn [step]. rewrite drop_sst, drop_snt.
  assert (F := timed_fresh cf s ts now (List.length (sys_store s)) T N). split.
  - now apply fresh_create.
  - intros u H. destruct (create_spec cf s None sp now) as [(r & e & E & _)|(_ & E & _)].
    + rewrite E in H. destruct H as [H|[]]. injection H as <-. rewrite has_event_dget, F. reflexivity.
    + rewrite E in H. destruct H.
Qed.
Print Assumptions C43_unique_by_time_partial.

Example C43_case_adds : path cf0 (fun _ o => only_adds cf0 o)
   (run cf0 (office ++ [OCreate None (p_spec (p_at 732500 9) None false ann []) 0;
                        OCreate None (p_spec (p_at 732500 9) None false ann []) 0]))
  /\ List.length (sys_store (run cf0 (office ++ [OCreate None (p_spec (p_at 732500 9) None false ann []) 0;
                        OCreate None (p_spec (p_at 732500 9) None false ann []) 0]))) = 5%nat.
Proof.
  split; [|vm_compute; reflexivity]. apply run_path. intros s o H. cbn in H.
  repeat (destruct H as [<-|H]; [split; [intros []|]; cbn; repeat constructor; apply short_foreign; cbn; lia|]). destruct H.
Qed.

Example C43_case_timed : let t := p_at 732500 8 in
  timed cf0 (sst (step cf0 (sst (step cf0 init (OCreate None (p_spec t None false ann []) t))) (ODelete 0))) [t]
  /\ newer (t + SECOND) [t].
Proof.
  cbv zeta. split.
  - apply (timed_step cf0 _ [p_at 732500 8] (ODelete 0)); [|constructor|intros ? []].
    apply (timed_step cf0 init [] (OCreate None _ (p_at 732500 8))); [constructor|constructor|].
    intros t [<-|[]]. split; [vm_compute; reflexivity|intros u []].
  - split; [vm_compute; reflexivity|]. intros u [<-|[]]. vm_compute. reflexivity.
Qed.

(** * C44: the creator of an event is its accepted organizer *)
Lemma set_attendees_others l i : ~ In i (entry_ids l) -> forall e, dicts_ok e ->
  dget (e_state (mev (set_attendees e l))) i = dget (e_state e) i
  /\ dget (e_role (mev (set_attendees e l))) i = dget (e_role e) i.
Proof.
  intros N e D.
  assert (X : dicts_ok (mev (set_attendees e l)) /\ dget (e_state (mev (set_attendees e l))) i = dget (e_state e) i
              /\ dget (e_role (mev (set_attendees e l))) i = dget (e_role e) i); [|tauto].
  apply (set_attendees_pres (fun e' => dicts_ok e' /\ dget (e_state e') i = dget (e_state e) i /\ dget (e_role e') i = dget (e_role e) i)); [|auto].
  intros e1 a ro st Hin (D1 & S1 & R1). assert (NE : Some i <> a).
  { intros <-. apply N. apply entry_ids_in. eauto. }
  split; [now apply entry_dicts|]. unfold entry_step. destruct a as [j|]; [|unfold set_role; destruct (str_in ro roles); auto].
  assert (IJ : String.eqb i j = false) by (destruct (String.eqb_spec i j); congruence).
  unfold set_role. destruct (str_in ro roles); [|auto]. cbn [attendee_id]. rewrite mbind_ok. unfold mev at 1 3. cbn [fst].
  destruct D1 as [D1 D2]. unfold set_status_raw. cbn [attendee_id]. destruct st as [st|].
  - unfold mev. cbn. rewrite !dget_dset, IJ. auto.
  - cbn [e_state with_role]. unfold ddel. destruct (dget (e_state e1) j).
    + cbn [e_role with_state with_role]. rewrite dget_dset, String.eqb_refl. unfold mev. cbn.
      rewrite !dget_drem by (exact D1 || now apply dset_nodup). rewrite IJ, dget_dset, IJ. auto.
    + unfold mev. cbn. rewrite dget_dset, IJ. auto.
Qed.

Lemma attendee_events_unbounded evs i : exists l, attendee_events evs (Some i) (None, None) None = Ok l
  /\ forall e, In e l <-> In e evs /\ dget (e_state e) i <> None.
Proof.
  unfold attendee_events.
  assert (X : exists l, get_events evs (None, None) (Some (restrict_attendees None [Some i : attendee])) = Ok l).
  { unfold get_events. destruct (matching_total evs (Some (restrict_attendees None [Some i : attendee]))) as [m M].
    { split; [discriminate|]. intros l E. cbn in E. injection E as <-. intros [X|[]]; discriminate. }
    rewrite M. cbn [rbind]. apply rfilter_ok. intros e _. unfold in_period. eauto. }
  destruct X as [l E]. exists l. split; [exact E|]. intros e. rewrite (get_events_unbounded _ _ _ E e).
  unfold satisfies, the_criteria. cbn. split.
  - intros (H1 & _ & _ & H2). split; [exact H1|]. destruct (H2 _ eq_refl) as (j & st & [J|[]] & A & _).
    injection J as <-. unfold attends in A. congruence.
  - intros (H1 & H2). split; [exact H1|]. split; [discriminate|]. split; [discriminate|].
    intros l0 E0. injection E0 as <-. destruct (dget (e_state e) i) as [st|] eqn:S; [|congruence].
    exists i, st. split; [now left|]. split; [exact S|]. split; discriminate.
Qed.

Lemma organized_unbounded evs i : exists l, organized_events evs (Some i) None = Ok l
  /\ forall e, In e l <-> In e evs /\ e_organizer e = Some i.
Proof.
  assert (X : exists l, organized_events evs (Some i) None = Ok l).
  { unfold organized_events, get_events.
    match goal with |- context [matching_events evs ?c] => destruct (matching_total evs c) as [m M] end.
    { split; [discriminate|]. cbn. discriminate. }
    rewrite M. cbn [rbind]. apply rfilter_ok. intros e _. unfold in_period. eauto. }
  destruct X as [l E]. exists l. split; [exact E|]. intros e.
  rewrite (organized_exact evs i None l I ltac:(discriminate) E e). unfold satisfies, the_criteria. cbn. intuition discriminate.
Qed.

(** getOrganizedEvents, in every state *)
Theorem C44_organized_events s i : exists l, organized_events (stored s) (Some i) None = Ok l
  /\ forall e, In e l <-> In e (stored s) /\ get_organizer_id e = Some i.
Proof. exact (organized_unbounded (stored s) i). Qed.
Print Assumptions C44_organized_events.

(** the creator is the organizer, whatever else was specified *)
Theorem C44_creator_organizes cf s i sp now s' n : step cf s (OAttendeeCreate i sp now) = (s', n, Ok tt) ->
  exists u k, n = [NCreated u] /\ get_event s' u = Ok k /\ get_organizer_id (obj s' k) = Some i
    /\ exists l, organized_events (stored s') (Some i) None = Ok l /\ In (obj s' k) l.
Proof.
  cbn [step]. unfold drop. destruct (create_spec cf s None (with_spec_organizer sp i) now) as [(r & e & E & R & NE & U)|(_ & _ & C)].
  - rewrite E. intros X. injection X as <- <-. eexists. exists r. split; [reflexivity|].
    unfold get_event, obj. cbn [sys_store sys_heap]. rewrite dget_dset, String.eqb_refl. split; [reflexivity|].
    assert (O : nth r (sys_heap s ++ [e]) (blank "") = e) by (subst r; now rewrite app_nth2, Nat.sub_diag by lia). rewrite O.
    assert (ORG : e_organizer e = Some i).
    { destruct (new_event_eq _ _ _ NE) as (e0 & n0 & E0 & ->).
      assert (Q : e_organizer e0 = Some i).
      { rewrite set_on_object_eq in E0. cbn [s_organizer with_spec_organizer] in E0.
        match type of E0 with set_attendees ?b ?l = _ => pose proof (set_attendees_attrs l b) as A end.
        rewrite E0 in A. unfold mev in A. cbn [fst] in A. unfold same_attrs in A. decompose [and] A.
        match goal with H : e_organizer e0 = _ |- _ => rewrite H | H : _ = e_organizer e0 |- _ => rewrite <- H end. reflexivity. }
      destruct (s_allday (with_spec_organizer sp i)); [|exact Q]. pose proof (allday_rest e0) as X. cbv zeta in X. decompose [and] X. congruence. }
    split; [exact ORG|].
    match goal with |- context [organized_events ?evs _ _] => destruct (organized_unbounded evs i) as (l & L1 & L2) end.
    exists l. split; [exact L1|]. apply L2. split; [|exact ORG]. unfold stored. apply in_map_iff.
    exists (generated_id cf now (List.length (sys_store s)), r). split; [unfold obj; cbn; exact O|].
    cbn. apply dget_in. now rewrite dget_dset, String.eqb_refl.
  - intros X. exfalso. destruct (create_event cf s None (with_spec_organizer sp i) now) as [[s1 n1] r1]. unfold srs in C. cbn in C.
    destruct r1 as [r1| |]; [now apply (C r1)|discriminate|discriminate].
Qed.
Print Assumptions C44_creator_organizes.

(** Refuted: the list of attendees given may contain the creator, with another
    status. *)
Theorem C44_accepted_refuted : exists s i sp now u k, reachable cf0 s
  /\ srs (step cf0 s (OAttendeeCreate i sp now)) = Ok tt
  /\ snt (step cf0 s (OAttendeeCreate i sp now)) = [NCreated u]
  /\ get_event (sst (step cf0 s (OAttendeeCreate i sp now))) u = Ok k
  /\ get_status (obj (sst (step cf0 s (OAttendeeCreate i sp now))) k) (Some i) = Ok (Some "DECLINED"%string).
Proof.
  exists (run cf0 office), "ann"%string, (p_spec (p_at 732500 9) None false None [(ann, "CHAIR"%string, Some "DECLINED"%string)]), 0.
  exists (generated_id cf0 0 3), 3%nat. split; [apply run_reachable|]. vm_compute. auto.
Qed.
Print Assumptions C44_accepted_refuted.

(** The creator has accepted and is a required participant, and sees the event,
    unless the attendees given name them too. *)
Theorem C44_accepted_partial cf s i sp now s' n : step cf s (OAttendeeCreate i sp now) = (s', n, Ok tt) ->
  ~ In i (entry_ids (s_attendees sp)) ->
  exists u k, n = [NCreated u] /\ get_event s' u = Ok k
    /\ get_status (obj s' k) (Some i) = Ok (Some "ACCEPTED"%string)
    /\ get_role (obj s' k) (Some i) = Ok (Some "REQ-PARTICIPANT"%string)
    /\ exists l, attendee_events (stored s') (Some i) (None, None) None = Ok l /\ In (obj s' k) l.
Proof.
  intros E0 N. cbn [step] in E0. unfold drop in E0.
  destruct (create_spec cf s None (with_spec_organizer sp i) now) as [(r & e & E & R & NE & U)|(_ & _ & C)].
  - rewrite E in E0. injection E0 as <- <-. eexists. exists r. split; [reflexivity|].
    unfold get_event, obj. cbn [sys_store sys_heap]. rewrite dget_dset, String.eqb_refl. split; [reflexivity|].
    assert (O : nth r (sys_heap s ++ [e]) (blank "") = e) by (subst r; now rewrite app_nth2, Nat.sub_diag by lia). rewrite O.
    assert (Q : dget (e_state e) i = Some "ACCEPTED"%string /\ dget (e_role e) i = Some "REQ-PARTICIPANT"%string).
    { destruct (new_event_eq _ _ _ NE) as (e0 & n0 & E0 & ->).
      assert (Q : dget (e_state e0) i = Some "ACCEPTED"%string /\ dget (e_role e0) i = Some "REQ-PARTICIPANT"%string).
      { rewrite set_on_object_eq in E0. cbn [s_organizer s_attendees with_spec_organizer] in E0.
        match type of E0 with set_attendees ?b ?l = _ => pose proof (set_attendees_others l i N b) as A end.
        rewrite E0 in A. unfold mev in A. cbn [fst] in A. destruct A as [A1 A2].
        - apply organize_dicts. split; constructor.
        - rewrite A1, A2. cbn. rewrite String.eqb_refl. auto. }
      destruct (s_allday (with_spec_organizer sp i)); [|exact Q]. now rewrite allday_state, allday_role. }
    destruct Q as [Q1 Q2]. unfold get_status, get_role. cbn [attendee_id rbind]. rewrite Q1, Q2. split; [reflexivity|]. split; [reflexivity|].
    match goal with |- context [attendee_events ?evs _ _ _] => destruct (attendee_events_unbounded evs i) as (l & L1 & L2) end.
    exists l. split; [exact L1|]. apply L2. split; [|congruence]. unfold stored. apply in_map_iff.
    exists (generated_id cf now (List.length (sys_store s)), r). split; [unfold obj; cbn; exact O|].
    cbn. apply dget_in. now rewrite dget_dset, String.eqb_refl.
  - exfalso. destruct (create_event cf s None (with_spec_organizer sp i) now) as [[s1 n1] r1]. unfold srs in C. cbn in C.
    destruct r1 as [r1| |]; [now apply (C r1)|discriminate|discriminate].
Qed.
Print Assumptions C44_accepted_partial.

Example C44_case : exists s' n,
  step cf0 (run cf0 office) (OAttendeeCreate "ann" (p_spec (p_at 732500 9) None false None [(bob, "CHAIR"%string, Some "DECLINED"%string)]) 0)
  = (s', n, Ok tt) /\ List.length (sys_store s') = 4%nat.
Proof. do 2 eexists. split; [vm_compute; reflexivity|reflexivity]. Qed.

(** * C45: importing never touches events outside the calendar *)
(** [visible s c p cr u]: the calendar [c] shows, for that period and those
    criteria, an event with id [u].  [text_ids parsed]: the ids in the text.
    Whatever the outcome: *)
Theorem C45_import_frame cf s c parsed p cr sync : reachable cf s ->
  let s' := sst (step cf s (OImport c parsed p cr sync)) in
  (* an event that is not visible stays, the same object, unchanged *)
  (forall u k, get_event s u = Ok k -> ~ visible s c p cr u -> get_event s' u = Ok k /\ obj s' k = obj s k)
  (* objects no longer stored stay unchanged, too *)
  /\ (forall k, (k < List.length (sys_heap s))%nat -> (forall u, get_event s u <> Ok k) -> obj s' k = obj s k)
  (* a visible event is replaced by no other *)
  /\ (forall u k k', get_event s u = Ok k -> get_event s' u = Ok k' -> k' = k)
  (* what is new comes from the text *)
  /\ (forall u k, get_event s' u = Ok k -> has_event s u = false -> In u (text_ids parsed) /\ (List.length (sys_heap s) <= k)%nat)
  (* attendees and calendars stay *)
  /\ sys_source s' = sys_source s /\ sys_cals s' = sys_cals s.
Proof.
  intros R. cbv zeta. cbn [step]. assert (I := reachable_store cf s R).
  destruct (import_frame cf s c parsed p cr sync I) as (s1 & del & (F1 & F2 & F3 & F4 & F5 & F6) & H1 & H2 & H3 & H4 & H5 & _).
  set (s' := sst (import_cal cf s c parsed p cr sync)) in *.
  assert (OB : forall k, obj s' k = obj s1 k) by (intros k; unfold obj; now rewrite H1).
  assert (KN : forall u, In u (match cal_events s c p cr with Ok evs => nodup string_dec (map e_uid evs) | _ => [] end) -> visible s c p cr u).
  { intros u. destruct (cal_events s c p cr) as [evs| |] eqn:E; [|intros []|intros []]. intros Hu.
    apply known_in in Hu as (e & He & <-). exists evs, e. auto. }
  split; [|split; [|split; [|split]]].
  - intros u k G V. unfold get_event in *. destruct (dget (sys_store s) u) as [k0|] eqn:D; [|discriminate]. assert (k0 = k) by congruence. subst k0.
    rewrite H4. destruct (str_in u del) eqn:S.
    + apply str_in_iff in S. elim V. now apply H5.
    + rewrite (F2 u k D). split; [reflexivity|]. rewrite OB. apply F1; [now apply (proj2 I) in D|].
      intros v Hv X. apply V. apply KN in Hv. destruct (proj2 I _ _ D) as (_ & U1 & _). destruct (proj2 I _ _ X) as (_ & U2 & _). congruence.
  - intros k Hk G. rewrite OB. apply F1; [exact Hk|]. intros u _ X. apply (G u). unfold get_event. now rewrite X.
  - intros u k k' G G'. unfold get_event in *. destruct (dget (sys_store s) u) as [k0|] eqn:D; [|discriminate].
    rewrite H4, (F2 _ _ D) in G'. destruct (str_in u del); congruence.
  - intros u k G N. unfold get_event in G. rewrite H4 in G. destruct (str_in u del); [discriminate|].
    destruct (dget (sys_store s1) u) as [k0|] eqn:D; [|discriminate]. assert (k0 = k) by congruence. subst k0.
    rewrite has_event_dget in N. destruct (F3 u k D) as [X Y]; [|split; assumption]. now destruct (dget (sys_store s) u).
  - split; congruence.
Qed.
Print Assumptions C45_import_frame.

(** the notifications say the same *)
Theorem C45_import_notices cf s c parsed p cr sync n : reachable cf s ->
  In n (snt (step cf s (OImport c parsed p cr sync))) ->
  match n with
  | NCreated u => In u (text_ids parsed) /\ ~ visible s c p cr u
  | NModified u => In u (text_ids parsed) /\ visible s c p cr u
  | NDeleted u => visible s c p cr u /\ ~ In u (text_ids parsed)
  | NParticipation _ _ _ _ => False
  end.
Proof. intros R. apply import_notes. exact (reachable_store cf s R). Qed.
Print Assumptions C45_import_notices.

(** ann's calendar; the text changes a1, tries to change bob's b1, adds n1 *)
Definition x_text : res (option (list vevent)) :=
  Ok (Some [x_event "a1" 732503 "Moved" []; x_event "b1" 732504 "Stolen" []; x_event "n1" 732505 "New" []])%string.
Definition x_import (sync : bool) : op := OImport 0 x_text (None, None) None sync.

Example C45_case : reachable cf0 (run cf0 office)
  /\ visible (run cf0 office) 0 (None, None) None "a1" /\ visible (run cf0 office) 0 (None, None) None "a2"
  /\ ~ visible (run cf0 office) 0 (None, None) None "b1"
  /\ snt (step cf0 (run cf0 office) (x_import true)) = [NModified "a1"; NCreated "n1"; NDeleted "a2"]%string
  /\ srs (step cf0 (run cf0 office) (x_import true)) = Ok tt.
Proof.
  assert (E : exists evs, cal_events (run cf0 office) 0 (None, None) None = Ok evs /\ map e_uid evs = ["a1"; "a2"]%string).
  { eexists. split; [vm_compute; reflexivity|]. reflexivity. }
  destruct E as (evs & E1 & E2). split; [apply run_reachable|].
  assert (V : forall u, visible (run cf0 office) 0 (None, None) None u <-> In u ["a1"; "a2"]%string).
  { intros u. rewrite <- E2, in_map_iff. split.
    - intros (evs' & e & X & Y & Z). assert (evs' = evs) by congruence. subst. eauto.
    - intros (e & Y & Z). exists evs, e. auto. }
  rewrite !V. split; [now left|]. split; [right; now left|]. split; [cbn; intuition discriminate|]. vm_compute. auto.
Qed.

(** * C46: only synchronizing imports delete, and exactly the missing events *)
Theorem C46_plain_import_deletes_nothing cf s c parsed p cr : reachable cf s ->
  let '(s', n, r) := step cf s (OImport c parsed p cr false) in
  (forall u k, get_event s u = Ok k -> get_event s' u = Ok k) /\ (forall u, ~ In (NDeleted u) n).
Proof.
  intros R. assert (I := reachable_store cf s R). cbn [step].
  destruct (import_frame cf s c parsed p cr false I) as (s1 & del & (_ & F2 & _) & _ & _ & _ & H4 & H5 & H6 & _).
  assert (ND : del = []) by (destruct del as [|u del]; [reflexivity|destruct H6 as [X _]; [discriminate|discriminate]]). subst del.
  assert (NN : forall u, ~ In (NDeleted u) (snt (import_cal cf s c parsed p cr false))).
  { clear. intros u. destruct (import_cases cf s c parsed p cr false) as [(evs & vs & _ & -> & ->)|(_ & -> & _)]; [|intros []].
    set (known := nodup string_dec (map e_uid evs)).
    assert (Q : Forall (fun n => match n with NDeleted _ => False | _ => True end) (snt (import_loop cf s c known vs))).
    { clear u. revert s. induction vs as [|v vs IH]; intros s; [constructor|]. cbn [import_loop].
      apply (sbind_T (fun _ n _ => Forall (fun n => match n with NDeleted _ => False | _ => True end) n) _ _ s).
      - intros a n1 b n2 c0 A B. now apply Forall_app.
      - unfold import_one. destruct (v_uid v) as [u|]; [|constructor]. destruct (str_in u known).
        + unfold import_existing. rewrite sbind_slift. destruct (get_event s u) as [r| |]; try constructor.
          rewrite sbind_slift. destruct (import_spec _ _ _ v) as [sp| |]; try constructor.
          rewrite sbind_slift. destruct (will_modify sp (obj s r)) as [[|]| |]; try constructor.
          unfold on_event. pose proof (set_on_object_notes sp (obj s r)) as N. unfold mnotes in N.
          destruct (set_on_object sp (obj s r)) as [[e n] x]. cbn in N. subst n. destruct x as [[]| |]; repeat constructor.
        + destruct (has_event s u); [constructor|]. unfold import_new. rewrite sbind_slift. destruct (import_spec _ _ _ v) as [sp| |]; try constructor.
          unfold create_event. destruct (new_event u sp); repeat constructor.
      - intros u Hu. specialize (IH (sst (import_one cf s c known v))).
        destruct (import_loop cf (sst (import_one cf s c known v)) c known vs) as [[s2 n2] r2]. unfold snt in IH. cbn in IH.
        destruct r2; unfold sbind, snt; cbn; rewrite ?app_nil_r; exact IH. }
    intros X. destruct (import_loop cf s c known vs) as [[s1 n1] r1]. unfold snt in Q, X. cbn in Q.
    assert (Y : In (NDeleted u) n1) by (destruct r1; cbn in X; rewrite ?app_nil_r in X; exact X).
    apply (proj1 (Forall_forall _ _) Q) in Y. exact Y. }
  unfold sst in H4. unfold snt in NN. destruct (import_cal cf s c parsed p cr false) as [[s' n] r]. cbn [fst snd] in *.
  split; [|exact NN]. intros u k G. unfold get_event in *. rewrite H4. cbn.
  destruct (dget (sys_store s) u) as [k0|] eqn:D; [|discriminate]. rewrite (F2 _ _ D). exact G.
Qed.
Print Assumptions C46_plain_import_deletes_nothing.

(** a synchronizing import that raises deletes nothing either *)
Theorem C46_failed_import_deletes_nothing cf s c parsed p cr sync : reachable cf s ->
  srs (step cf s (OImport c parsed p cr sync)) <> Ok tt ->
  forall u k, get_event s u = Ok k -> get_event (sst (step cf s (OImport c parsed p cr sync))) u = Ok k.
Proof.
  intros R NO u k G. assert (I := reachable_store cf s R). cbn [step] in *.
  destruct (import_frame cf s c parsed p cr sync I) as (s1 & del & (_ & F2 & _) & _ & _ & _ & H4 & H5 & H6 & _).
  assert (ND : del = []) by (destruct del as [|v del]; [reflexivity|destruct H6 as [_ X]; [discriminate|contradiction]]). subst del.
  unfold get_event in *. rewrite H4. cbn. destruct (dget (sys_store s) u) as [k0|] eqn:D; [|discriminate]. rewrite (F2 _ _ D). exact G.
Qed.
Print Assumptions C46_failed_import_deletes_nothing.

(** a successful synchronizing import of a text with events [vs]: of the visible
    events exactly those named in the text are left, and every id in the text
    exists afterwards *)
Theorem C46_sync_exact cf s c vs p cr : reachable cf s ->
  srs (step cf s (OImport c (Ok (Some vs)) p cr true)) = Ok tt ->
  let s' := sst (step cf s (OImport c (Ok (Some vs)) p cr true)) in
  let uids := flat_map (fun v => match v_uid v with Some u => [u] | None => [] end) vs in
  (forall u, visible s c p cr u -> (has_event s' u = true <-> In u uids))
  /\ (forall u, visible s c p cr u -> ~ In u uids -> In (NDeleted u) (snt (step cf s (OImport c (Ok (Some vs)) p cr true))))
  /\ (forall u, In u uids -> has_event s' u = true).
Proof.
  intros R OK. assert (I := reachable_store cf s R). cbv zeta. cbn [step] in *.
  destruct (import_frame cf s c (Ok (Some vs)) p cr true I) as (s1 & del & (_ & F2 & _) & _ & _ & _ & H4 & H5 & _ & H7 & H8 & H9).
  set (s' := sst (import_cal cf s c (Ok (Some vs)) p cr true)) in *. specialize (H7 eq_refl OK vs eq_refl). destruct (H8 OK vs eq_refl) as [_ H8'].
  cbn [text_ids] in *. unfold import_uids in *.
  assert (L : forall u, In u (flat_map (fun v => match v_uid v with Some u => [u] | None => [] end) vs) -> has_event s' u = true).
  { intros u Hu. specialize (H8' u Hu). rewrite has_event_dget in *. rewrite H4. destruct (str_in u del) eqn:S; [|exact H8'].
    apply str_in_iff, H5 in S. tauto. }
  split; [|split; [|exact L]].
  - intros u V. split; [|apply L]. intros HE. destruct (in_dec string_dec u (flat_map (fun v => match v_uid v with Some u => [u] | None => [] end) vs)) as [Y|N]; [exact Y|].
    exfalso. assert (D : In u del) by (apply H7; auto). apply str_in_iff in D. rewrite has_event_dget, H4, D in HE. discriminate.
  - intros u V N. apply H9, H7. auto.
Qed.
Print Assumptions C46_sync_exact.

(** the same for creations of a plain import *)
Theorem C46_creates_all cf s c vs p cr sync : reachable cf s ->
  srs (step cf s (OImport c (Ok (Some vs)) p cr sync)) = Ok tt ->
  forall v, In v vs -> exists u, v_uid v = Some u /\ has_event (sst (step cf s (OImport c (Ok (Some vs)) p cr sync))) u = true.
Proof.
  intros R OK v Hv. assert (I := reachable_store cf s R). cbn [step] in *.
  destruct (import_frame cf s c (Ok (Some vs)) p cr sync I) as (s1 & del & _ & _ & _ & _ & H4 & H5 & _ & _ & H8 & _).
  destruct (H8 OK vs eq_refl) as [H8' H9]. specialize (H8' v Hv). destruct (v_uid v) as [u|] eqn:U; [|congruence]. exists u. split; [reflexivity|].
  assert (T : In u (text_ids (Ok (Some vs)))).
  { cbn. unfold import_uids. apply in_flat_map. exists v. split; [exact Hv|]. rewrite U. now left. }
  specialize (H9 u T). rewrite has_event_dget in *. rewrite H4. destruct (str_in u del) eqn:S; [|exact H9].
  apply str_in_iff, H5 in S. tauto.
Qed.
Print Assumptions C46_creates_all.

Example C46_case : reachable cf0 (run cf0 office) /\ srs (step cf0 (run cf0 office) (x_import true)) = Ok tt
  /\ map (has_event (sst (step cf0 (run cf0 office) (x_import true)))) ["a1"; "a2"; "b1"; "n1"]%string = [true; false; true; true]
  /\ map (has_event (sst (step cf0 (run cf0 office) (x_import false)))) ["a1"; "a2"; "b1"; "n1"]%string = [true; true; true; true].
Proof. split; [apply run_reachable|]. vm_compute. auto. Qed.

(** * C53: a failed import has no effect *)
(** Refuted: the components before the one that fails have been imported. *)
Theorem C53_atomic_refuted : exists s c vs, reachable cf0 s
  /\ srs (step cf0 s (OImport c (Ok (Some vs)) (None, None) None false)) = Raise KeyError
  /\ snt (step cf0 s (OImport c (Ok (Some vs)) (None, None) None false)) = [NCreated "n1"%string]
  /\ has_event s "n1" = false
  /\ has_event (sst (step cf0 s (OImport c (Ok (Some vs)) (None, None) None false))) "n1" = true.
Proof.
  exists (run cf0 office), O, [x_event "n1" 732505 "New" []%string;
    mkV None (Some (IFloat (p_at 732505 9))) None None None None None None None [] [] None None None None].
  split; [apply run_reachable|]. vm_compute. auto.
Qed.
Print Assumptions C53_atomic_refuted.

(** No effect when the text cannot be parsed or the calendar cannot be read... *)
Theorem C53_unreadable_partial cf s c parsed p cr sync :
  (forall vs, parsed <> Ok (Some vs)) \/ (forall evs, cal_events s c p cr <> Ok evs) ->
  sst (step cf s (OImport c parsed p cr sync)) = s /\ snt (step cf s (OImport c parsed p cr sync)) = [].
Proof.
  intros H. cbn [step]. destruct (import_cases cf s c parsed p cr sync) as [(evs & vs & E1 & E2 & _)|(E & EN & _)]; [|auto].
  exfalso. destruct H as [H|H]; [now apply (H vs)|now apply (H evs)].
Qed.
Print Assumptions C53_unreadable_partial.

(** ... or when the first component is new and fails.  Missing: failures later in
    the text.  (Whatever fails, nothing is deleted: C46; nothing outside the
    calendar changes: C45.) *)
Theorem C53_first_component_partial cf s c v vs p cr sync : 
  (forall u, v_uid v = Some u -> ~ visible s c p cr u /\ has_event s u = false) ->
  (forall sp, import_spec (cf_tz cf) (source_knows s) (main_attendee s c) v = Ok sp ->
     forall u e, v_uid v = Some u -> new_event u sp <> Ok e) ->
  sst (step cf s (OImport c (Ok (Some (v :: vs))) p cr sync)) = s
  /\ snt (step cf s (OImport c (Ok (Some (v :: vs))) p cr sync)) = []
  /\ srs (step cf s (OImport c (Ok (Some (v :: vs))) p cr sync)) <> Ok tt.
Proof.
  intros H1 H2. cbn [step]. destruct (import_cases cf s c (Ok (Some (v :: vs))) p cr sync) as [(evs & vs' & E1 & E2 & ->)|(E & EN & ER)].
  2:{ repeat split; auto. now apply (ER (v :: vs)). }
  assert (vs' = v :: vs) by congruence. subst vs'. cbn [import_loop].
  assert (X : exists x, import_one cf s c (nodup string_dec (map e_uid evs)) v = (s, [], x) /\ forall u, x <> Ok u).
  { unfold import_one. destruct (v_uid v) as [u|] eqn:U; [|eexists; split; [reflexivity|discriminate]].
    destruct (H1 u eq_refl) as [N1 N2]. destruct (str_in u (nodup string_dec (map e_uid evs))) eqn:K.
    { elim N1. apply str_in_iff, known_in in K as (e & He & <-). exists evs, e. auto. }
    rewrite N2. unfold import_new. rewrite sbind_slift. destruct (import_spec _ _ _ v) as [sp| |] eqn:IS.
    - specialize (H2 sp eq_refl u). unfold create_event. destruct (new_event u sp) as [e| |] eqn:NE;
        [now elim (H2 e eq_refl)|eexists; split; [reflexivity|discriminate]|eexists; split; [reflexivity|discriminate]].
    - eexists; split; [reflexivity|discriminate].
    - eexists; split; [reflexivity|discriminate]. }
  destruct X as (x & -> & NX). destruct x as [u|x|]; [now elim (NX u)|cbn; repeat split; discriminate|cbn; repeat split; discriminate].
Qed.
Print Assumptions C53_first_component_partial.

Example C53_case : let v := x_event "n1" 732505 "New" [("bob", None, Some "GUEST")]%string in
  (forall u, v_uid v = Some u -> ~ visible (run cf0 office) 0 (None, None) None u /\ has_event (run cf0 office) u = false)
  /\ exists sp, import_spec (cf_tz cf0) (source_knows (run cf0 office)) (main_attendee (run cf0 office) 0) v = Ok sp
     /\ new_event "n1" sp = Raise AssertionError.
Proof.
  cbv zeta. split.
  - intros u E. assert (u = "n1"%string) by (cbn in E; congruence). subst u. split; [|vm_compute; reflexivity].
    intros (evs & e & X & Y & Z). assert (Q : In "n1"%string (map e_uid evs)) by (rewrite <- Z; now apply in_map).
    vm_compute in X. assert (X' : evs = match (Ok evs : res (list event)) with Ok l => l | _ => [] end) by reflexivity.
    rewrite <- X in X'. subst evs. cbn in Q. intuition discriminate.
  - eexists. split; [vm_compute; reflexivity|]. vm_compute. reflexivity.
Qed.
