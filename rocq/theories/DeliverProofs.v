(** Proofs about Deliver.v that do not depend on what the subscribers do. *)
From Verif Require Import Base PyDate Recurrent CalTime Event Storage ICal System Deliver
  EventProofs SpecProofs SystemProofs.

(** * Sequences *)
Lemma tbind_slift {M A B} (k : M) s (r : res A) (f : M -> system -> A -> tmut M B) :
  tbind (unheard k (slift s r)) f
  = match r with Ok a => f k s a | Raise e => unheard k (s, [], Raise e) | OutOfFuel => unheard k (s, [], OutOfFuel) end.
Proof. unfold tbind, unheard, slift. destruct r as [a|e|]; try reflexivity. destruct (f k s a) as [k' [[s' n'] r']]. reflexivity. Qed.

Lemma tbind_ok {M A B} (k : M) s n (a : A) (f : M -> system -> A -> tmut M B) :
  tbind (unheard k (s, n, Ok a)) f
  = (fst (f k s a), (sst (snd (f k s a)), n ++ snt (snd (f k s a)), srs (snd (f k s a)))).
Proof. unfold tbind, unheard, sst, snt, srs. destruct (f k s a) as [k' [[s' n'] r']]. reflexivity. Qed.

(** the part of the outcome that does not concern the memory *)
Lemma tbind_snd {M A B} (m : tmut M A) (f : M -> system -> A -> tmut M B) (g : system -> A -> smut B) :
  (forall k a, srs (snd m) = Ok a -> snd (f k (sst (snd m)) a) = g (sst (snd m)) a) -> snd (tbind m f) = sbind (snd m) g.
Proof.
  destruct m as [k [[s n] [a|x|]]]; cbn; intros H; [|reflexivity..]. rewrite <- (H k a eq_refl).
  now destruct (f k s a) as [k' [[s' n'] r']].
Qed.

(** * Any relation that each change and the delivery of its notification keep *)
Definition fuel_out {A} (r : res A) : bool := match r with OutOfFuel => true | _ => false end.

(** [m] leads from memory [k] and state [s] as [R] says *)
Definition leads {M A} (R : M -> system -> list notification -> M -> system -> bool -> Prop) (k : M) (s : system) (m : tmut M A) : Prop :=
  R k s (snt (snd m)) (fst m) (sst (snd m)) (fuel_out (srs (snd m))).

Definition R_refl {M} (R : M -> system -> list notification -> M -> system -> bool -> Prop) : Prop :=
  forall k s b, R k s [] k s b.
Definition R_trans {M} (R : M -> system -> list notification -> M -> system -> bool -> Prop) : Prop :=
  forall k s n1 k1 s1 n2 k2 s2 b, R k s n1 k1 s1 false -> R k1 s1 n2 k2 s2 b -> R k s (n1 ++ n2) k2 s2 b.
(** calls of kind [P], each in a state, that announce nothing *)
Definition R_quiet {M} (cf : config) (P : system -> op -> Prop) (R : M -> system -> list notification -> M -> system -> bool -> Prop) : Prop :=
  forall k s o, P s o -> snt (step cf s o) = [] -> R k s [] k (sst (step cf s o)) (fuel_out (srs (step cf s o))).
(** the object a notification is about *)
Definition subject (s : system) (o : op) : nat :=
  match o with
  | ODelete r | OSetStatus r _ _ | OSpecify r _ => r
  | _ => List.length (sys_heap s)
  end.
Definition primitive (o : op) : Prop :=
  match o with OCreate _ _ _ | OAttendeeCreate _ _ _ | ODelete _ | OSetStatus _ _ _ => True | _ => False end.
(** calls of kind [P] with one notification, and its delivery *)
Definition R_told {M} (cf : config) (P : system -> op -> Prop) (t : teller M)
           (R : M -> system -> list notification -> M -> system -> bool -> Prop) : Prop :=
  forall k s o s1 x, P s o -> primitive o -> step cf s o = (s1, [x], Ok tt) ->
    let m := t k s1 (subject s o) x in R k s (x :: snt (snd m)) (fst m) (sst (snd m)) (fuel_out (srs (snd m))).
(** changes by an import of texts with components in [X], and the delivery of the notification *)
Definition R_modified {M} (cf : config) (P : system -> op -> Prop) (X : vevent -> Prop) (t : teller M)
           (R : M -> system -> list notification -> M -> system -> bool -> Prop) : Prop :=
  forall k s r sp s1 v u, P s (OSpecify r sp) -> X v -> v_uid v = Some u -> get_event s u = Ok r ->
    (exists known main, import_spec (cf_tz cf) known main v = Ok sp) ->
    step cf s (OSpecify r sp) = (s1, [], Ok tt) ->
    let x := NModified (e_uid (obj s1 r)) in
    let m := t k s1 r x in R k s (x :: snt (snd m)) (fst m) (sst (snd m)) (fuel_out (srs (snd m))).
(** the components of the text of a call *)
Definition in_text (o : op) (v : vevent) : Prop :=
  match o with OImport _ (Ok (Some vs)) _ _ _ => In v vs | _ => False end.

Lemma tbind_leads {M A B} R (m : tmut M A) (f : M -> system -> A -> tmut M B) k s : R_trans R ->
  leads R k s m ->
  (forall a, srs (snd m) = Ok a -> leads R (fst m) (sst (snd m)) (f (fst m) (sst (snd m)) a)) -> leads R k s (tbind m f).
Proof.
  intros T H1 H2. destruct m as [k1 [[s1 n1] r1]]. unfold leads, tbind, srs, sst, snt in *. cbn [fst snd] in *.
  destruct r1 as [a|e|]; [|exact H1..]. specialize (H2 a eq_refl). destruct (f k1 s1 a) as [k2 [[s2 n2] r2]]. cbn [fst snd] in *.
  eapply T; [exact H1|exact H2].
Qed.

(** the calls that make up a call, made in state [s]: an invitation sets the
    status of those without one and then their roles, an import creates events not stored,
    respecifies and deletes stored ones *)
Inductive part (cf : config) (s : system) : op -> op -> Prop :=
| part_whole o : part cf s o o
| part_status r l a : In a l -> get_status (obj s r) a = Ok None ->
    part cf s (OInvite r l) (OSetStatus r a (Some "NEEDS-ACTION"%string))
| part_role r l a : In a l -> part cf s (OInvite r l) (OSetRole r a "REQ-PARTICIPANT")
| part_new c vs p cr sync v u sp : In v vs -> v_uid v = Some u -> has_event s u = false ->
    import_spec (cf_tz cf) (source_knows s) (main_attendee s c) v = Ok sp ->
    part cf s (OImport c (Ok (Some vs)) p cr sync) (OCreate (Some u) sp 0)
| part_change c vs p cr sync v u r sp : In v vs -> v_uid v = Some u -> get_event s u = Ok r ->
    import_spec (cf_tz cf) (source_knows s) (main_attendee s c) v = Ok sp -> will_modify sp (obj s r) = Ok true ->
    part cf s (OImport c (Ok (Some vs)) p cr sync) (OSpecify r sp)
| part_delete c vs p cr r u : get_event s u = Ok r -> part cf s (OImport c (Ok (Some vs)) p cr true) (ODelete r).

(** a kind of calls that with a call has its parts *)
Definition closed (cf : config) (P : op -> Prop) : Prop := forall s o o', P o -> part cf s o o' -> P o'.

Lemma quiet_step {M} cf P R (k : M) s o : R_quiet cf P R -> P s o -> snt (step cf s o) = [] -> leads R k s (unheard k (step cf s o)).
Proof. intros Q H N. unfold leads, unheard. cbn [fst snd]. rewrite N. now apply Q. Qed.

Lemma nothing {M A} R (k : M) s (r : res A) : R_refl R -> leads R k s (unheard k (s, [], r)).
Proof. intros F. unfold leads, unheard. cbn [fst snd]. apply F. Qed.

Lemma told_leads {M} cf P t R (k : M) s o s1 x : R_told cf P t R -> P s o -> primitive o -> step cf s o = (s1, [x], Ok tt) ->
  leads R k s (tbind (unheard k (s1, [x], Ok tt)) (fun k s2 _ => t k s2 (subject s o) x)).
Proof. intros T H PR E. rewrite tbind_ok. exact (T k s o s1 x H PR E). Qed.

Lemma status_leads {M} cf P t R (k : M) s r a st : R_refl R -> R_quiet cf P R -> R_told cf P t R -> P s (OSetStatus r a st) ->
  leads R k s (set_status_on t k s r a st).
Proof.
  intros F Q T H. unfold set_status_on. destruct (match st with None => true | Some x => str_in x statuses end) eqn:K;
    [|now apply nothing]. rewrite tbind_slift. destruct (get_status (obj s r) a) as [old|x|] eqn:G; [|now apply nothing..].
  destruct (opt_str_eqb old st) eqn:E; [now apply nothing|].
  assert (S1 : step cf s (OSetStatus r a st)
    = let '(e1, n1, x) := set_status_raw (obj s r) a st in
      (with_heap s (replace_nth r (sys_heap s) e1),
       match x, a with Ok _, Some i => [NParticipation (e_uid e1) i old st] | _, _ => [] end, x)).
  { cbn [step]. unfold on_event, set_status. rewrite K, G, E. pose proof (set_raw_notes (obj s r) a st) as N.
    destruct (set_status_raw (obj s r) a st) as [[e1 n1] [u|x|]]; unfold mnotes in N; cbn in N; subst n1; cbn [mbind];
      [destruct u; destruct a; reflexivity|reflexivity..]. }
  assert (U : e_uid (fst (fst (set_status_raw (obj s r) a st))) = e_uid (obj s r)) by apply set_raw_attrs.
  unfold on_event. pose proof (set_raw_notes (obj s r) a st) as N.
  pose proof (quiet_step cf P R k s _ Q H) as O. rewrite S1 in O.
  pose proof (fun s1 x => told_leads cf P t R k s _ s1 x T H I) as TL. rewrite S1 in TL.
  destruct (set_status_raw (obj s r) a st) as [[e1 n1] x]. unfold mnotes in N. cbn [fst snd] in N, U. subst n1.
  set (s1 := with_heap s (replace_nth r (sys_heap s) e1)) in *.
  destruct x as [u|x|]; [|exact (O eq_refl)..].
  rewrite tbind_ok. cbn [app]. destruct a as [i|]; [|exact (O eq_refl)].
  assert (U1 : e_uid (obj s1 r) = e_uid e1).
  { unfold s1. rewrite obj_heap, replace_nth_get, Nat.eqb_refl. destruct (Nat.ltb_spec r (List.length (sys_heap s))) as [L|L]; [reflexivity|].
    cbn [andb]. rewrite U. reflexivity. }
  rewrite U1. unfold announce. destruct u. specialize (TL s1 _ eq_refl). cbn [subject] in TL.
  destruct (tbind (unheard k (s1, [NParticipation (e_uid e1) i old st], Ok tt))
              (fun k s _ => t k s r (NParticipation (e_uid e1) i old st))) as [k2 [[s2 n2] r2]]. exact TL.
Qed.

Lemma role_leads {M} cf (P : system -> op -> Prop) R (k : M) s r a ro : R_quiet cf P R -> P s (OSetRole r a ro) ->
  leads R k s (unheard k (set_role_on s r a ro)).
Proof.
  intros Q H. apply (quiet_step cf P R k s (OSetRole r a ro) Q H). cbn [step]. unfold on_event. pose proof (set_role_notes (obj s r) a ro) as N.
  destruct (set_role (obj s r) a ro) as [[e n] x]. exact N.
Qed.

Lemma invite_leads {M} cf (P : system -> op -> Prop) t R r l : R_refl R -> R_trans R -> R_quiet cf P R -> R_told cf P t R ->
  (forall a s, In a l -> (get_status (obj s r) a = Ok None -> P s (OSetStatus r a (Some "NEEDS-ACTION"%string))) /\ P s (OSetRole r a "REQ-PARTICIPANT")) ->
  forall (k : M) s, leads R k s (invite_on t k s r l).
Proof.
  intros F TR Q T. induction l as [|a l IH]; intros H k s; cbn [invite_on]; [now apply nothing|].
  rewrite tbind_slift. destruct (get_status (obj s r) a) as [[st|]|x|] eqn:G; [| |now apply nothing..].
  - apply IH. intros b s0 Hb. apply H. now right.
  - apply tbind_leads; [exact TR| |intros u _; apply IH; intros b s0 Hb; apply H; now right].
    apply tbind_leads; [exact TR|apply (status_leads cf P); auto; now apply (H a s ltac:(now left))|].
    intros u _. apply (role_leads cf P); [exact Q|]. apply H. now left.
Qed.

(** creating, in either way *)
Lemma create_leads {M} cf (P : system -> op -> Prop) t R (k : M) s o uid sp now : R_refl R -> R_trans R -> R_quiet cf P R -> R_told cf P t R -> P s o ->
  o = OCreate uid sp now \/ (exists i sp0, o = OAttendeeCreate i sp0 now /\ uid = None /\ sp = with_spec_organizer sp0 i) ->
  leads R k s (create_on t cf k s uid sp now).
Proof.
  intros F TR Q T H O.
  assert (S1 : step cf s o = drop (create_event cf s uid sp now)) by (destruct O as [->|(i & sp0 & -> & -> & ->)]; reflexivity).
  assert (P1 : primitive o) by (destruct O as [->|(i & sp0 & -> & _)]; exact I).
  assert (SJ : subject s o = List.length (sys_heap s)) by (destruct O as [->|(i & sp0 & -> & _)]; reflexivity).
  unfold create_on. pose proof (quiet_step cf P R k s o Q H) as QS.
  pose proof (fun s1 x => told_leads cf P t R k s o s1 x T H P1) as TL. rewrite S1 in QS, TL. rewrite SJ in TL. unfold create_event in *.
  set (u := match uid with Some u => u | None => generated_id cf now (List.length (sys_store s)) end) in *.
  destruct (new_event u sp) as [e|x|] eqn:NE; [|exact (QS eq_refl)..].
  set (s1 := mkSys (sys_heap s ++ [e]) _ _ _) in *. set (r := List.length (sys_heap s)) in *.
  assert (OB : obj s1 r = e) by (exact (nth_middle (sys_heap s) [] e (blank ""))).
  assert (EU : e_uid e = u) by (now apply new_event_uid in NE).
  rewrite tbind_ok. rewrite OB, EU. specialize (TL s1 (NCreated u) eq_refl). rewrite tbind_ok in TL.
  destruct (t k s1 r (NCreated u)) as [k2 [[s2 n2] [v|x|]]]; unfold leads, tbind, unheard, sret in *;
    cbn [fst snd sst snt srs fuel_out] in *; unfold sst, snt, srs in *; cbn [fst snd] in *; [rewrite app_nil_r|..]; exact TL.
Qed.

Lemma delete_leads {M} cf (P : system -> op -> Prop) t R (k : M) s r : R_quiet cf P R -> R_told cf P t R -> P s (ODelete r) ->
  leads R k s (delete_on t k s r).
Proof.
  intros Q T H. unfold delete_on. pose proof (quiet_step cf P R k s (ODelete r) Q H) as QS.
  pose proof (fun s1 x => told_leads cf P t R k s (ODelete r) s1 x T H I) as TL. cbn [step subject] in QS, TL.
  unfold delete_event in *. destruct (ddel (sys_store s) (e_uid (obj s r))) as [d|x|]; [|exact (QS eq_refl)..].
  rewrite tbind_ok. specialize (TL _ _ eq_refl). rewrite tbind_ok in TL. exact TL.
Qed.

Lemma import_leads {M} cf (P : system -> op -> Prop) (X : vevent -> Prop) t R (k : M) s c parsed p cr sync :
  R_refl R -> R_trans R -> R_quiet cf P R -> R_told cf P t R -> R_modified cf P X t R ->
  (forall v, in_text (OImport c parsed p cr sync) v -> X v) -> (forall s o, part cf s (OImport c parsed p cr sync) o -> P s o) -> leads R k s (import_on t cf k s c parsed p cr sync).
Proof.
  intros F TR Q T MO IX H. unfold import_on. rewrite tbind_slift. destruct (cal_events s c p cr) as [evs|x|]; [|now apply nothing..].
  cbv zeta. set (known := nodup string_dec (map e_uid evs)). clearbody known. rewrite tbind_slift.
  destruct parsed as [[vs|]|x|]; [|now apply nothing..].
  assert (L : forall l, (forall v, In v l -> In v vs) -> forall k s, leads R k s (import_loop_on t cf k s c known l)).
  { induction l as [|v l IH]; intros SUB k0 s0; cbn [import_loop_on]; [now apply nothing|].
    apply tbind_leads; [exact TR| |].
    - unfold import_one_on. destruct (v_uid v) as [u|] eqn:U; [|now apply nothing]. destruct (str_in u known).
      + apply tbind_leads; [exact TR| |intros w _; now apply nothing]. unfold import_existing_on. rewrite tbind_slift.
        destruct (get_event s0 u) as [r|x|] eqn:GE; [|now apply nothing..]. rewrite tbind_slift.
        destruct (import_spec (cf_tz cf) (source_knows s0) (main_attendee s0 c) v) as [sp|x|] eqn:SP; [|now apply nothing..].
        rewrite tbind_slift. destruct (will_modify sp (obj s0 r)) as [[|]|x|] eqn:WM; [|now apply nothing..].
        assert (PS : P s0 (OSpecify r sp)).
        { apply H. eapply part_change; [apply SUB; now left|exact U|exact GE|exact SP|exact WM]. }
        assert (N : snt (step cf s0 (OSpecify r sp)) = []).
        { cbn [step]. unfold on_event. pose proof (set_on_object_notes sp (obj s0 r)) as N.
          destruct (set_on_object sp (obj s0 r)) as [[e n] x]. exact N. }
        change (on_event s0 r (set_on_object sp)) with (step cf s0 (OSpecify r sp)).
        pose proof (quiet_step cf P R k0 s0 _ Q PS N) as QS. 
        pose proof (fun s1 => MO k0 s0 r sp s1 v u PS (IX v (SUB v ltac:(now left))) U GE ltac:(eauto)) as MS.
        destruct (step cf s0 (OSpecify r sp)) as [[s1 n1] [[]|x|]]; cbn in N; unfold snt in N; cbn [fst snd] in N; subst n1; [|exact QS..].
        rewrite tbind_ok. unfold announce. rewrite tbind_ok. exact (MS s1 eq_refl).
      + destruct (has_event s0 u) eqn:HE; [now apply nothing|].
        apply tbind_leads; [exact TR| |intros w _; now apply nothing]. unfold import_new_on. rewrite tbind_slift.
        destruct (import_spec (cf_tz cf) (source_knows s0) (main_attendee s0 c) v) as [sp|x|] eqn:SP; [|now apply nothing..].
        apply tbind_leads; [exact TR| |intros w _; now apply nothing].
        apply (create_leads cf P t R k0 s0 (OCreate (Some u) sp 0)); auto.
        apply H. eapply part_new; [apply SUB; now left|exact U|exact HE|exact SP].
    - intros u _. apply tbind_leads; [exact TR|apply IH; intros w Hw; apply SUB; now right|]. intros us _. now apply nothing. }
  apply tbind_leads; [exact TR|now apply L|]. intros ical _. destruct sync; [|now apply nothing].
  generalize (filter (fun u => negb (str_in u ical)) known). intros uids.
  generalize (fst (import_loop_on t cf k s c known vs)). generalize (sst (snd (import_loop_on t cf k s c known vs))).
  induction uids as [|u uids IH]; intros s0 k0; cbn [delete_loop_on]; [now apply nothing|].
  rewrite tbind_slift. destruct (get_event s0 u) as [r|x|] eqn:GE; [|now apply nothing..].
  apply tbind_leads; [exact TR| |intros w _; apply IH]. apply (delete_leads cf P); auto. apply H. econstructor. exact GE.
Qed.

(** every call, if the parts of it and the deliveries do *)
Lemma step_leads {M} cf (P : system -> op -> Prop) (X : vevent -> Prop) t R (k : M) s o :
  R_refl R -> R_trans R -> R_quiet cf P R -> R_told cf P t R -> R_modified cf P X t R ->
  (forall v, in_text o v -> X v) -> (forall s o', part cf s o o' -> P s o') -> leads R k s (step_on t cf k s o).
Proof.
  intros F TR Q T MO IX C. pose proof (C s o (part_whole cf s o)) as H. destruct o; cbn [step_on].
  - apply tbind_leads; [exact TR|apply (create_leads cf P t R k s (OCreate uid sp now)); auto|]. intros u _. now apply nothing.
  - apply tbind_leads; [exact TR|apply (create_leads cf P t R k s (OAttendeeCreate i sp now)); auto; right; eauto|]. intros u _. now apply nothing.
  - now apply (delete_leads cf P).
  - apply (invite_leads cf P); auto. intros a s0 Ha. split; [intros G|]; apply C; now constructor.
  - now apply (status_leads cf P).
  - now apply (role_leads cf P).
  - now apply (quiet_step cf P).
  - now apply (quiet_step cf P).
  - apply (quiet_step cf P); [exact Q|exact H|]. cbn [step]. unfold on_event.
    pose proof (set_on_object_notes sp (obj s r)) as N. destruct (set_on_object sp (obj s r)) as [[e n] x]. exact N.
  - now apply (quiet_step cf P).
  - now apply (quiet_step cf P).
  - apply (quiet_step cf P); [exact Q|exact H|]. cbn [step]. unfold add_attendee. now destruct (attendee_id a).
  - apply (quiet_step cf P); [exact Q|exact H|]. cbn [step]. unfold remove_attendee.
    now destruct (let* i := attendee_id a in ddel (cal s c) i).
  - now apply (import_leads cf P X).
Qed.
