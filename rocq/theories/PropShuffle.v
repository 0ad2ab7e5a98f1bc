(** Property theorems C120: the order in which Python iterates a dictionary.

    The model keeps every dictionary as an association list; Python (at the
    version of /repo) promises no order of iteration.  Here the order is allowed
    to be any order, and a different one before every call. *)
From Verif Require Import Base PyDate Recurrent CalTime Event Storage ICal System.
From Verif Require Import EventProofs SystemProofs ShuffleProofs ShuffleSystem PropEvent PropSystem.
From Coq Require Import Sorting.Permutation.

(** ** Specification *)
(** [same_dict], [event_alike], [sys_alike], [listed_alike] and [ends_alike] are
    defined at the top of ShuffleProofs.v.  Two events are alike when they only
    differ by the order of the two participation dictionaries: *)
Theorem C120_event : forall e1 e2, event_alike e1 e2 <->
  (e_uid e1 = e_uid e2 /\ e_dtstart e1 = e_dtstart e2 /\ e_duration e1 = e_duration e2 /\ e_title e1 = e_title e2
   /\ e_description e1 = e_description e2 /\ e_location e1 = e_location e2 /\ e_status e1 = e_status e2
   /\ e_recurrence e1 = e_recurrence e2 /\ e_allday e1 = e_allday e2 /\ e_categories e1 = e_categories e2
   /\ e_transparent e1 = e_transparent e2 /\ e_access e1 = e_access e2 /\ e_document e1 = e_document e2
   /\ e_organizer e1 = e_organizer e2)
  /\ same_dict (e_state e1) (e_state e2) /\ same_dict (e_role e1) (e_role e2).
Proof.
  intros e1 e2. split.
  - intros [e st1 st2 ro1 ro2 S R]. repeat split; try apply S; try apply R.
  - destruct e1 as [a1 a2 a3 a4 a5 a6 a7 a8 a9 a10 a11 a12 a13 a14 a15 a16], e2 as [b1 b2 b3 b4 b5 b6 b7 b8 b9 b10 b11 b12 b13 b14 b15 b16].
    cbn [e_uid e_dtstart e_duration e_title e_description e_location e_status e_recurrence e_allday e_categories
      e_transparent e_access e_document e_organizer e_state e_role].
    intros ((-> & -> & -> & -> & -> & -> & -> & -> & -> & -> & -> & -> & -> & ->) & S & R).
    exact (event_alike_intro (mkEvent b1 b2 b3 b4 b5 b6 b7 b8 b9 b10 b11 b12 b13 b14 [] []) a15 b15 a16 b16 S R).
Qed.
Print Assumptions C120_event.

(** the call does not ask for the main attendee of a calendar of several: the
    only question the API answers with "the first key of a dictionary" *)
Definition settled (s : system) (o : op) : Prop :=
  match o with
  | OImport c (Ok (Some vs)) _ _ _ =>
      (List.length (cal s c) <= 1)%nat
      \/ Forall (fun v => exists i x, v_organizer v = Some i /\ dget (sys_source s) i = Some x) vs
  | _ => True
  end.

(** a history in which every dictionary may be reordered before every call *)
Inductive shuffled (cf : config) : system -> list (op * list notification * res unit) -> Prop :=
| shuffled_init : shuffled cf init []
| shuffled_step s h s1 o s' n r : shuffled cf s h -> sys_alike s s1 -> settled s1 o -> step cf s1 o = (s', n, r) ->
    shuffled cf s' (h ++ [(o, n, r)]).

(** the same call with the same effects, notified in some order *)
Definition call_alike (x y : op * list notification * res unit) : Prop :=
  fst (fst x) = fst (fst y) /\ Permutation (snd (fst x)) (snd (fst y)) /\ ends_alike eq (snd x) (snd y).

(** ** Proofs *)
Lemma short_perm {V} (d1 d2 : dict V) : same_dict d1 d2 -> (List.length d1 <= 1)%nat -> d1 = d2.
Proof.
  intros [_ P] L. destruct d1 as [|a [|b d]]; [|symmetry; now apply Permutation_length_1_inv|cbn in L; lia].
  symmetry. now apply Permutation_nil.
Qed.

Lemma settled_agree s1 s2 o : sys_alike s1 s2 -> settled s1 o -> op_agree s1 s2 o.
Proof.
  intros H S. destruct o; try exact I. destruct parsed as [[vs|]|x|]; try exact I. cbn [settled op_agree] in *. destruct S as [L|F].
  - apply Forall_forall. intros v _. left. unfold main_attendee. rewrite (short_perm _ _ (cal_same s1 s2 c H) L).
    destruct (dkeys (cal s2 c)); [reflexivity|]. now apply source_get_alike.
  - eapply Forall_impl; [|exact F]. intros v (i & x & V & D). right. exists i. split; [exact V|]. unfold source_knows. now rewrite D.
Qed.

Lemma settled_alike s1 s2 o : sys_alike s1 s2 -> settled s1 o -> settled s2 o.
Proof.
  intros H. destruct o; try exact (fun X => X). destruct parsed as [[vs|]|x|]; try exact (fun X => X). cbn [settled].
  rewrite (same_length _ _ (cal_same s1 s2 c H)). intros [L|F]; [now left|right]. eapply Forall_impl; [|exact F].
  intros v (i & x & V & D). exists i, x. split; [exact V|]. rewrite <- D. symmetry. apply same_get. apply H.
Qed.

(** ** Theorems *)
(** One call on the same state with its dictionaries in two orders: the same
    state after it, the same notifications up to their order, and either both
    calls return or both raise.  Only an import can send its notifications in
    another order or raise another exception. *)
Theorem C120_step : forall cf s1 s2 o, reachable cf s1 -> sys_alike s1 s2 -> settled s1 o ->
  let m1 := step cf s1 o in let m2 := step cf s2 o in
  sys_alike (sst m1) (sst m2) /\ Permutation (snt m1) (snt m2) /\ ends_alike eq (srs m1) (srs m2)
  /\ ((forall c parsed p cr sync, o <> OImport c parsed p cr sync) -> snt m1 = snt m2 /\ srs m1 = srs m2).
Proof.
  intros cf s1 s2 o R H S. cbv zeta. destruct (step_alike cf s1 s2 o H (reachable_store cf s1 R) (settled_agree s1 s2 o H S)) as (A & B & C).
  split; [exact A|]. split; [exact B|]. split; [exact C|]. intros NI.
  destruct (step_same cf s1 s2 o H) as (_ & N & E); [|auto]. destruct o; intros X; try exact X. now apply (NI c parsed p cr sync).
Qed.
Print Assumptions C120_step.

(** the dictionaries of a reachable state are dictionaries: no key twice *)
Theorem C120_itself : forall cf s, reachable cf s -> sys_alike s s.
Proof.
  intros cf s (h & H). induction H as [|s h o s' n r H IH E]; [exact sys_init|].
  assert (A : op_agree s s o).
  { destruct o; try exact I. destruct parsed as [[vs|]|x|]; try exact I. apply Forall_forall. intros v _. now left. }
  destruct (step_alike cf s s o IH (reachable_store cf s (ex_intro _ h H)) A) as (X & _). rewrite E in X. exact X.
Qed.
Print Assumptions C120_itself.

(** Whole histories: whatever the orders were, the state reached is, up to the
    order of its dictionaries, one the model reaches by the same calls with the
    same effects. *)
Theorem C120_history : forall cf s h, shuffled cf s h ->
  exists s' h', history cf s' h' /\ sys_alike s s' /\ Forall2 call_alike h h'.
Proof.
  intros cf s h. induction 1 as [|s h s1 o s' n r H (t & g & G & A & F) P S E].
  - exists init, []. split; [constructor|]. split; [exact sys_init|constructor].
  - assert (B : sys_alike s1 t) by (eapply sys_trans; [apply sys_sym; exact P|exact A]).
    pose proof (C120_step cf t s1 o (ex_intro _ g G) (sys_sym _ _ B) (settled_alike _ _ _ B S)) as (X & Y & Z & _).
    destruct (step cf t o) as [[t' m] q] eqn:T. rewrite E in X, Y, Z. unfold sst, snt, srs in X, Y, Z. cbn [fst snd] in X, Y, Z.
    exists t', (g ++ [(o, m, q)]). split; [econstructor; eassumption|]. split; [now apply sys_sym|].
    apply Forall2_app; [exact F|]. constructor; [|constructor]. split; [reflexivity|]. cbn. split; [now symmetry|].
    destruct q, r; cbn in Z |- *; try contradiction; try exact I. now symmetry.
Qed.
Print Assumptions C120_history.

(** the plain histories of settled calls are among them *)
Theorem C120_converse : forall cf s, path cf settled s -> exists h, history cf s h /\ shuffled cf s h.
Proof.
  intros cf s. induction 1 as [|s o P (h & H & IH) S]; [exists []; split; constructor|].
  destruct (step cf s o) as [[s' n] r] eqn:E. exists (h ++ [(o, n, r)]). split; [econstructor; eassumption|].
  econstructor; [exact IH|apply (C120_itself cf); now exists h|exact S|exact E].
Qed.
Print Assumptions C120_converse.

(** What the API shows of two such states. *)
Theorem C120_queries : forall s1 s2, sys_alike s1 s2 ->
  (* one event *)
  (forall u, get_event s1 u = get_event s2 u)
  /\ (forall r a, get_status (obj s1 r) a = get_status (obj s2 r) a /\ get_role (obj s1 r) a = get_role (obj s2 r) a)
  /\ (forall r p, export_event p (obj s1 r) = export_event p (obj s2 r))
  (* queries of the storage: the same answers in some order *)
  /\ (forall p c, ends_alike (listed_alike event_alike) (get_events (stored s1) p c) (get_events (stored s2) p c))
  /\ (forall F p c, ends_alike (listed_alike occ_alike) (get_occurrences F (stored s1) p c) (get_occurrences F (stored s2) p c))
  /\ (forall F p c, ends_alike (listed_alike occ_alike) (get_occurrences_segmented F (stored s1) p c)
                                                        (get_occurrences_segmented F (stored s2) p c))
  (* blocked and free periods: the very same list *)
  /\ (forall F a1 a2 begins ends tb te, Permutation a1 a2 ->
        ends_alike eq (get_blocked F (stored s1) a1 begins ends tb te) (get_blocked F (stored s2) a2 begins ends tb te))
  /\ (forall F a1 a2 begins ends tb te m, Permutation a1 a2 ->
        ends_alike eq (get_free F (stored s1) a1 begins ends tb te m) (get_free F (stored s2) a2 begins ends tb te m))
  (* calendars *)
  /\ (forall c, ends_alike (@Permutation attendee) (cal_attendees s1 c) (cal_attendees s2 c))
  /\ (forall c p cr, ends_alike (listed_alike event_alike) (cal_events s1 c p cr) (cal_events s2 c p cr))
  /\ (forall F c p cr, ends_alike (listed_alike occ_alike)
        (let* l := cal_attendees s1 c in calendar_occurrences F (stored s1) l p cr)
        (let* l := cal_attendees s2 c in calendar_occurrences F (stored s2) l p cr))
  /\ (forall F c p cr, ends_alike (listed_alike occ_alike)
        (let* l := cal_attendees s1 c in calendar_segmented F (stored s1) l p cr)
        (let* l := cal_attendees s2 c in calendar_segmented F (stored s2) l p cr))
  /\ (forall c p cr, ends_alike (@Permutation vevent) (export_cal s1 c p cr) (export_cal s2 c p cr))
  /\ (forall c, (List.length (cal s1 c) <= 1)%nat -> main_attendee s1 c = main_attendee s2 c).
Proof.
  intros s1 s2 H. pose proof (stored_alike s1 s2 H) as L.
  split; [intros u; now apply get_event_alike|].
  split; [intros r a; split; [apply alike_status|apply alike_role]; now apply obj_alike|].
  split; [intros r p; pose proof (obj_alike s1 s2 r H) as X; now destruct X|].
  split; [intros p c; now apply get_events_alike|].
  split; [intros F p c; now apply get_occurrences_alike|].
  split; [intros F p c; now apply segmented_alike|].
  split; [intros F a1 a2 b e tb te P; now apply blocked_alike|].
  split; [intros F a1 a2 b e tb te m P; now apply free_alike|].
  split; [intros c; now apply cal_attendees_alike|].
  split; [intros c p cr; now apply cal_events_alike|].
  split; [intros F c p cr; now apply calendar_occurrences_alike|].
  split; [intros F c p cr; now apply calendar_segmented_alike|].
  split; [intros c p cr; now apply export_cal_alike|].
  intros c X. unfold main_attendee. rewrite (short_perm _ _ (cal_same s1 s2 c H) X).
  destruct (dkeys (cal s2 c)); [reflexivity|]. now apply source_get_alike.
Qed.
Print Assumptions C120_queries.

(** the attendees an event lists, by status and role *)
Theorem C120_attendees : forall e1 e2 st ro, event_alike e1 e2 ->
  ends_alike (@Permutation string) (get_attendee_ids e1 st ro) (get_attendee_ids e2 st ro).
Proof.
  intros e1 e2 st ro [e st1 st2 ro1 ro2 S R]. unfold get_attendee_ids.
  eapply ends_bind with (R := listed_alike eq); [|intros l1 l2 L; cbn; apply Permutation_map; now apply listed_eq].
  cbn [e_role e_state with_role with_state].
  replace (rfilter _ st2) with (rfilter (fun kv : string * string =>
    if match st with Some s => negb (String.eqb s (snd kv)) | None => false end then Ok false
    else match ro with
         | None => Ok true
         | Some x => match dget ro1 (fst kv) with Some ro' => Ok (String.eqb x ro') | None => Raise KeyError end
         end) st2).
  - apply (filter_alike eq); [now intros a b <-|]. apply listed_eq, S.
  - clear S. induction st2 as [|kv l IH]; [reflexivity|]. cbn [rfilter]. rewrite IH. f_equal. now rewrite (same_get ro1 ro2 (fst kv) R).
Qed.
Print Assumptions C120_attendees.

(** ** Examples *)
Definition rev_event (e : event) : event := with_role (with_state e (rev (e_state e))) (rev (e_role e)).
Definition reversed (s : system) : system :=
  mkSys (map rev_event (sys_heap s)) (rev (sys_store s)) (rev (sys_source s)) (map (@rev _) (sys_cals s)).

Lemma reversed_alike s : sys_alike s s -> sys_alike s (reversed s).
Proof.
  intros (H & D & S & C). unfold reversed. split; [|split; [|split]]; cbn.
  - clear -H. induction (sys_heap s) as [|e l IH]; [constructor|]. inversion H as [|? ? ? ? X Y]; subst. cbn. constructor; [|auto].
    apply C120_event in X as (_ & SS & SR). apply C120_event. repeat split; try apply SS; try apply SR; apply Permutation_rev.
  - split; [apply D|apply Permutation_rev].
  - split; [apply S|apply Permutation_rev].
  - clear -C. induction (sys_cals s) as [|d l IH]; [constructor|]. inversion C as [|? ? ? ? X Y]; subst. cbn. constructor; [|auto].
    split; [apply X|apply Permutation_rev].
Qed.

(** In the office, both events ann is invited to are visible in ann's calendar;
    an empty text deletes them, in one order or the other. *)
Example C120_case :
  let s := run cf0 office in let o := OImport 0 (Ok (Some [])) (None, None) None true in
  reachable cf0 s /\ sys_alike s (reversed s) /\ s <> reversed s /\ settled s o
  /\ snt (step cf0 s o) = [NDeleted "a1"; NDeleted "a2"]%string
  /\ snt (step cf0 (reversed s) o) = [NDeleted "a2"; NDeleted "a1"]%string
  /\ sys_store (sst (step cf0 s o)) = [("b1"%string, 2%nat)] /\ sys_store (sst (step cf0 (reversed s) o)) = [("b1"%string, 2%nat)].
Proof.
  cbv zeta. split; [apply run_reachable|]. split; [apply reversed_alike, (C120_itself cf0), run_reachable|].
  split; [intros X; apply (f_equal sys_store) in X; vm_compute in X; discriminate|]. split; [left; vm_compute; lia|].
  repeat split; vm_compute; reflexivity.
Qed.

Lemma run_shuffled cf ops : forall s h, shuffled cf s h -> (forall s o, In o ops -> settled s o) -> sys_alike s s ->
  (forall s h, shuffled cf s h -> store_inv s) ->
  exists h', shuffled cf (fold_left (fun s o => sst (step cf (reversed s) o)) ops s) h'.
Proof.
  induction ops as [|o ops IH]; intros s h H S A SI; [now exists h|]. cbn [fold_left].
  destruct (step cf (reversed s) o) as [[s' n] r] eqn:E.
  assert (H' : shuffled cf s' (h ++ [(o, n, r)])).
  { econstructor; [exact H|apply reversed_alike; exact A|apply S; now left|exact E]. }
  unfold sst. cbn [fst]. eapply IH; [exact H'|intros t q Q; apply S; now right| |exact SI].
  destruct (C120_history cf s' _ H') as (t & g & _ & B & _). eapply sys_trans; [exact B|apply sys_sym; exact B].
Qed.

(** a history in which every dictionary is reversed before every call *)
Example C120_reversed_history : exists s h,
  shuffled cf0 s h /\ map fst (sys_store s) = ["a2"; "a1"; "b1"]%string /\ map fst (sys_store (run cf0 office)) = ["a1"; "a2"; "b1"]%string.
Proof.
  destruct (run_shuffled cf0 office init [] (shuffled_init cf0)) as (h & H).
  - intros s o Ho. cbn in Ho. repeat (destruct Ho as [<-|Ho]; [exact I|]). destruct Ho.
  - exact sys_init.
  - intros s h H. destruct (C120_history cf0 s h H) as (t & g & G & B & _).
    apply (store_inv_alike t s (sys_sym _ _ B)), (reachable_store cf0). now exists g.
  - exists (fold_left (fun s o => sst (step cf0 (reversed s) o)) office init), h. split; [exact H|]. split; vm_compute; reflexivity.
Qed.

(** ** The main attendee *)
(** Without the restriction the order is visible: of a calendar of two
    attendees, the main one is whichever comes first, and becomes the organizer
    of an imported event that names none. *)
Theorem C120_main_refuted : exists s1 s2 o, reachable cf0 s1 /\ reachable cf0 s2 /\ sys_alike s1 s2
  /\ ~ settled s1 o /\ main_attendee s1 0 = Ok ann /\ main_attendee s2 0 = Ok bob
  /\ srs (step cf0 s1 o) = Ok tt /\ srs (step cf0 s2 o) = Ok tt
  /\ e_organizer (obj (sst (step cf0 s1 o)) 0) = ann /\ e_organizer (obj (sst (step cf0 s2 o)) 0) = bob
  /\ ~ sys_alike (sst (step cf0 s1 o)) (sst (step cf0 s2 o)).
Proof.
  set (pre := [OAttendee "ann" "Ann" "INDIVIDUAL"; OAttendee "bob" "Bob" "INDIVIDUAL"; OCalendar]%string).
  set (o := OImport 0 (Ok (Some [x_event "n1" 732500 "New" []])) (None, None) None false).
  exists (run cf0 (pre ++ [OAddAttendee 0 ann; OAddAttendee 0 bob])), (run cf0 (pre ++ [OAddAttendee 0 bob; OAddAttendee 0 ann])), o.
  split; [apply run_reachable|]. split; [apply run_reachable|]. split; [|split].
  - split; [vm_compute; constructor|]. split; [vm_compute; split; constructor|]. split.
    + apply (C120_itself cf0 (run cf0 (pre ++ [OAddAttendee 0 ann; OAddAttendee 0 bob]))), run_reachable.
    + vm_compute. constructor; [|constructor]. split; [|apply perm_swap]. repeat constructor; cbn; intuition discriminate.
  - intros [L|F]; [vm_compute in L; lia|]. inversion F as [|? ? (i & x & V & _) _]; subst. discriminate.
  - repeat split; try (vm_compute; reflexivity). intros (H & _). vm_compute in H. inversion H as [|? ? ? ? X _]; subst.
    apply alike_organizer in X. discriminate.
Qed.
Print Assumptions C120_main_refuted.
