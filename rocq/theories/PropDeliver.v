(** The whole system when subscribers act while they are being notified. *)
From Verif Require Import Base PyDate DateFacts Recurrent CalTime TimeProofs Event Storage ICal System Deliver
  QueryProofs EventProofs SpecProofs SystemProofs StoreProofs IdProofs ImportTwice DeliverProofs PropEvent PropSystem PropSound PropICal.

(** makes one call and passes on how it came out *)
Definition one_call {M} (k : M) (o : op) : program M := Call k o (fun k _ r => Return k r).
(** returns *)
Definition fine {M} (k : M) : program M := Return k (Ok tt).
(** tests/test_cal.py 7-12: whoever is told of is made to accept *)
Definition accept {M} : watcher M :=
  fun k _ r x => match x with NParticipation _ i _ _ => one_call k (OSetStatus r (Some i) (Some "ACCEPTED"%string)) | _ => fine k end.
(** invites [l] to every new event *)
Definition inviter {M} (l : list attendee) : watcher M :=
  fun k _ r x => match x with NCreated _ => one_call k (OInvite r l) | _ => fine k end.
(** only listens *)
Definition deaf {M} : watcher M := fun k _ _ _ => fine k.
(** invites [a] to the first [n] events it hears of, no matter whether that works *)
Definition thrifty (a : attendee) : watcher nat :=
  fun n _ r x => match x, n with
                 | NCreated _, S n' => Call n' (OInvite r [a]) (fun k _ _ => fine k)
                 | _, _ => fine n
                 end.
Definition a_plan : op := OCreate (Some "n1"%string) (p_spec (p_at 732503 9) (Some HOUR) false ann []) 0.

(** * What calls without any such subscriber do, one after the other *)
(** the calls of [l] in turn, whatever their outcome: the state they lead to and what they announce *)
Fixpoint in_turn (cf : config) (s : system) (l : list op) : system * list notification :=
  match l with
  | [] => (s, [])
  | o :: r => let '(s1, n1, _) := step cf s o in let '(s2, n2) := in_turn cf s1 r in (s2, n1 ++ n2)
  end.

(** what importing announces of an event it changed *)
Definition modification (x : notification) : bool := match x with NModified _ => true | _ => false end.

(** whatever they remember and are told, the subscribers only make calls of this kind *)
Fixpoint calls_within {M} (P : op -> Prop) (p : program M) : Prop :=
  match p with
  | Return _ _ => True
  | Call _ o next => P o /\ forall k s r, calls_within P (next k s r)
  end.
Definition within {M} (P : op -> Prop) (subs : list (watcher M)) : Prop :=
  forall w k s r x, In w subs -> calls_within P (w k s r x).

Lemma within_all {M} (subs : list (watcher M)) : within (fun _ => True) subs.
Proof. intros w k s r x _. induction (w k s r x) as [k0 r0|k0 o next IH]; cbn; auto. Qed.

Lemma in_turn_app cf l1 : forall s s1 n1 l2 s2 n2, in_turn cf s l1 = (s1, n1) -> in_turn cf s1 l2 = (s2, n2) ->
  in_turn cf s (l1 ++ l2) = (s2, n1 ++ n2).
Proof.
  induction l1 as [|o l1 IH]; cbn [in_turn app]; intros s s1 n1 l2 s2 n2 E1 E2.
  - injection E1 as <- <-. exact E2.
  - destruct (step cf s o) as [[sa na] ra]. destruct (in_turn cf sa l1) as [sb nb] eqn:E. injection E1 as <- <-.
    rewrite (IH _ _ _ _ _ _ E E2). now rewrite app_assoc.
Qed.

(** from [s] to [s'], announcing [n]: the same as calls of kind [P] in turn, except for modifications *)
Definition serial (cf : config) (P : op -> Prop) (s : system) (n : list notification) (s' : system) : Prop :=
  exists l, Forall P l /\ in_turn cf s l = (s', filter (fun x => negb (modification x)) n).

Lemma serial_refl cf P : T_refl (serial cf P).
Proof. intros s. exists []. split; [constructor|reflexivity]. Qed.
Lemma serial_trans cf P : T_trans (serial cf P).
Proof.
  intros a n1 b n2 c (l1 & F1 & E1) (l2 & F2 & E2). exists (l1 ++ l2).
  split; [now apply Forall_app|]. rewrite filter_app. now apply in_turn_app with b.
Qed.
Lemma serial_one cf (P : op -> Prop) s o : P o -> filter (fun x => negb (modification x)) (snt (step cf s o)) = snt (step cf s o) ->
  serial cf P s (snt (step cf s o)) (sst (step cf s o)).
Proof.
  intros H F. exists [o]. split; [now constructor|]. rewrite F. cbn [in_turn]. unfold snt, sst.
  destruct (step cf s o) as [[s' n] r]. cbn. now rewrite app_nil_r.
Qed.

Lemma primitive_notes cf s o : primitive o -> filter (fun x => negb (modification x)) (snt (step cf s o)) = snt (step cf s o).
Proof.
  destruct o; cbn [primitive step]; try contradiction; intros _.
  - rewrite drop_snt. destruct (create_spec cf s uid sp now) as [(r & e & -> & _)|(_ & -> & _)]; reflexivity.
  - rewrite drop_snt. destruct (create_spec cf s None (with_spec_organizer sp i) now) as [(r & e & -> & _)|(_ & -> & _)]; reflexivity.
  - unfold delete_event. destruct (ddel _ _); reflexivity.
  - unfold on_event, set_status. destruct (match st with None => true | Some x => str_in x statuses end); [|reflexivity].
    destruct (get_status (obj s r) a) as [old|x|]; [|reflexivity..]. destruct (opt_str_eqb old st); [reflexivity|].
    pose proof (set_raw_notes (obj s r) a st) as N.
    destruct (set_status_raw (obj s r) a st) as [[e1 n1] [u|x|]]; unfold mnotes in N; cbn in N; subst n1; cbn [mbind];
      [destruct a; reflexivity|reflexivity..].
Qed.

Definition serially {M} cf P : M -> system -> list notification -> M -> system -> bool -> Prop :=
  fun _ s n _ s' _ => serial cf P s n s'.
Definition sound_teller {M} cf P (t : teller M) : Prop := forall k s r x, leads (serially cf P) k s (t k s r x).

Lemma step_serial {M} cf (P : op -> Prop) t (k : M) s o : sound_teller cf P t -> closed cf P -> P o ->
  leads (serially cf P) k s (step_on t cf k s o).
Proof.
  intros T C H. apply (step_leads cf (fun _ => P) (fun _ => True)); auto.
  - intros ? ? ?. apply serial_refl.
  - intros k0 s0 n1 k1 s1 n2 k2 s2 b. apply serial_trans.
  - intros k0 s0 o0 P0 N. unfold serially. rewrite <- N. apply serial_one; [exact P0|]. now rewrite N.
  - intros k0 s0 o0 s1 x P0 P1 E m. unfold serially. apply (serial_trans cf P s0 [x] s1).
    + pose proof (serial_one cf P s0 o0 P0 (primitive_notes cf s0 o0 P1)) as X. now rewrite E in X.
    + apply T.
  - intros k0 s0 r sp s1 v u P0 _ _ _ _ E x m. unfold serially.
    destruct (serial_trans cf P s0 [] s1 (snt (snd m)) (sst (snd m))) as (l & F & L).
    + pose proof (serial_one cf P s0 (OSpecify r sp) P0) as X. rewrite E in X. exact (X eq_refl).
    + apply T.
    + exists l. split; [exact F|]. exact L.
  - intros s0 o'. exact (C s0 o o' H).
Qed.

Lemma carry_out_serial {M} cf (P : op -> Prop) t (p : program M) : sound_teller cf P t -> closed cf P -> calls_within P p ->
  forall k s, leads (serially cf P) k s (carry_out (step_on t cf) s p).
Proof.
  intros T C. induction p as [k0 r0|k0 o next IH]; cbn [calls_within carry_out]; intros W k s; [apply serial_refl|].
  destruct W as [PO W]. pose proof (step_serial cf P t k0 s o T C PO) as X.
  destruct (step_on t cf k0 s o) as [k1 [[s1 n1] r1]]. specialize (IH k1 s1 r1 (W k1 s1 r1) k1 s1).
  destruct (carry_out (step_on t cf) s1 (next k1 s1 r1)) as [k2 [[s2 n2] r2]].
  exact (serial_trans cf P s n1 s1 n2 s2 X IH).
Qed.

Lemma deliver_serial {M} cf (P : op -> Prop) (subs : list (watcher M)) depth : closed cf P -> within P subs ->
  sound_teller cf P (deliver depth cf subs).
Proof.
  intros C W. induction depth as [|d IH]; intros k s r x; cbn [deliver]; [apply serial_refl|].
  assert (L : forall l, (forall w, In w l -> In w subs) -> forall k s,
    leads (serially cf P) k s (each_on (step_on (deliver d cf subs) cf) l k s r x)).
  { induction l as [|w l IHl]; intros SUB k0 s0; cbn [each_on]; [apply serial_refl|].
    apply tbind_leads; [intros ? ? ? ? ? ? ? ? ?; apply serial_trans| |intros u _; apply IHl; intros v Hv; apply SUB; now right].
    apply carry_out_serial; [exact IH|exact C|]. apply W, SUB. now left. }
  apply L. auto.
Qed.

(** * C115: subscribers do nothing that plain calls could not do *)
(** Whatever the subscribers remember and do when told, and however deep that
    goes, a call leaves the state that some calls, made one after the other
    without any acting subscriber, leave; these are the call, calls the
    subscribers make, or parts of such calls; and they announce the same, in the
    same order, except for the modifications announced by imports. *)
Theorem C115_in_turn M cf (P : op -> Prop) depth (subs : list (watcher M)) k s o k' s' n r :
  closed cf P -> within P subs -> P o -> step_told depth cf subs k s o = (k', (s', n, r)) ->
  exists l, Forall P l /\ in_turn cf s l = (s', filter (fun x => negb (modification x)) n).
Proof.
  intros C W H E. pose proof (step_serial cf P (deliver depth cf subs) k s o (deliver_serial cf P subs depth C W) C H) as S.
  unfold step_told in E. rewrite E in S. exact S.
Qed.
(** creating an event, with a subscriber that invites and one that accepts *)
Example C115_in_turn_ex : let subs := [inviter [bob]; accept] : list (watcher unit) in
  closed cf0 (fun _ => True) /\ within (fun _ => True) subs
  /\ step_told 3 cf0 subs tt (run cf0 office) a_plan
     = (tt, (run cf0 (office ++ [a_plan; OInvite 3 [bob]; OSetStatus 3 bob (Some "ACCEPTED"%string)]),
        [NCreated "n1"; NParticipation "n1" "bob" None (Some "NEEDS-ACTION");
         NParticipation "n1" "bob" (Some "NEEDS-ACTION") (Some "ACCEPTED")]%string, Ok tt))
  /\ in_turn cf0 (run cf0 office)
       [a_plan; OSetStatus 3 bob (Some "NEEDS-ACTION"); OSetStatus 3 bob (Some "ACCEPTED"); OSetRole 3 bob "REQ-PARTICIPANT"]%string
     = (run cf0 (office ++ [a_plan; OInvite 3 [bob]; OSetStatus 3 bob (Some "ACCEPTED"%string)]),
        [NCreated "n1"; NParticipation "n1" "bob" None (Some "NEEDS-ACTION");
         NParticipation "n1" "bob" (Some "NEEDS-ACTION") (Some "ACCEPTED")]%string).
Proof.
  split; [intros ? ? ? _ _; exact I|]. split; [apply within_all|]. vm_compute. repeat split.
Qed.
(** a subscriber that remembers how often it may still invite: the first new
    event has bob, the second has not, and once it has nothing left it does nothing *)
Example C115_memory_ex : exists k1 s1 n1 k2 s2 n2,
  step_told 3 cf0 [thrifty bob] 1%nat (run cf0 office) a_plan = (k1, (s1, n1, Ok tt))
  /\ step_told 3 cf0 [thrifty bob] k1 s1 (OCreate (Some "n2"%string) (p_spec (p_at 732503 9) (Some HOUR) false ann []) 0) = (k2, (s2, n2, Ok tt))
  /\ k1 = 0%nat /\ n1 = [NCreated "n1"; NParticipation "n1" "bob" None (Some "NEEDS-ACTION")]%string /\ n2 = [NCreated "n2"]%string.
Proof. do 6 eexists. split; [vm_compute; reflexivity|]. split; [vm_compute; reflexivity|]. repeat split. Qed.
Print Assumptions C115_in_turn.

Lemma in_turn_path cf ok l : forall s, path cf ok s -> (forall s o, In o l -> ok s o) -> path cf ok (fst (in_turn cf s l)).
Proof.
  induction l as [|o l IH]; intros s Hs O; [exact Hs|]. cbn [in_turn].
  pose proof (path_step cf ok s o Hs (O s o ltac:(now left))) as Q. unfold sst in Q.
  destruct (step cf s o) as [[s1 n1] r1]. cbn [fst] in Q. specialize (IH s1 Q ltac:(intros; apply O; now right)).
  destruct (in_turn cf s1 l) as [s2 n2]. exact IH.
Qed.

(** calls, each with its own subscribers, all of kind [P] *)
Inductive told_path (cf : config) (P : op -> Prop) : system -> Prop :=
| told_path_init : told_path cf P init
| told_path_step M (k : M) s depth subs o : told_path cf P s -> within P subs -> P o ->
    told_path cf P (sst (snd (step_told depth cf subs k s o))).

(** So calls of such a kind with subscribers lead nowhere that such calls
    without acting subscribers do not lead. *)
Theorem C115_same_states cf (P : op -> Prop) s : closed cf P -> told_path cf P s -> path cf (fun _ o => P o) s.
Proof.
  intros C H. induction H as [|M k s depth subs o _ IH W O]; [constructor|].
  destruct (step_told depth cf subs k s o) as [k' [[s' n] r]] eqn:E.
  destruct (C115_in_turn M cf P depth subs k s o k' s' n r C W O E) as (l & F & L).
  pose proof (in_turn_path cf (fun _ o => P o) l s IH (fun _ o Ho => proj1 (Forall_forall P l) F o Ho)) as Q.
  rewrite L in Q. exact Q.
Qed.
Print Assumptions C115_same_states.

(** In particular everything said of reachable states holds with subscribers. *)
Theorem C115_reachable cf s n : told_history cf s n -> reachable cf s.
Proof.
  intros H. apply (path_history cf (fun _ _ => True)). apply (C115_same_states cf (fun _ => True)); [intros ? ? ? _ _; exact I|].
  induction H as [|M k s n depth subs o k' s' n' r _ IH E]; [constructor|].
  replace s' with (sst (snd (step_told depth cf subs k s o))) by now rewrite E. constructor; [exact IH| |exact I].
  apply within_all.
Qed.
Print Assumptions C115_reachable.

(** * C116: subscribers that only listen *)
(** whatever they remember of it *)
Definition only_listens {M} (w : watcher M) : Prop := forall k s r x, exists k', w k s r x = fine k'.
(** the object invited to exists *)
Definition refers_to_object (s : system) (o : op) : Prop :=
  match o with OInvite r _ => (r < List.length (sys_heap s))%nat | _ => True end.

Definition silent {M} (t : teller M) : Prop := forall k s r x, snd (t k s r x) = (s, [], Ok tt).
Definition silent_on_changes {M} (t : teller M) : Prop := forall k s r u i o n, snd (t k s r (NParticipation u i o n)) = (s, [], Ok tt).

Lemma each_silent {M} f (subs : list (watcher M)) : Forall only_listens subs -> forall k s r x, snd (each_on f subs k s r x) = (s, [], Ok tt).
Proof.
  induction 1 as [|w subs H _ IH]; intros k s r x; [reflexivity|]. cbn [each_on]. destruct (H k s r x) as [k' ->]. cbn [carry_out fine tbind].
  specialize (IH k' s r x). destruct (each_on f subs k' s r x) as [k2 [[s2 n2] r2]]. cbn [snd] in *. injection IH as -> -> ->. reflexivity.
Qed.

Lemma sbind_ret {A} (m : smut A) : sbind m (fun s a => sret s a) = m.
Proof. destruct m as [[s n] [a|x|]]; cbn; [now rewrite app_nil_r|reflexivity..]. Qed.
Lemma sbind_ext {A B} (m : smut A) (f g : system -> A -> smut B) :
  (forall a, srs m = Ok a -> f (sst m) a = g (sst m) a) -> sbind m f = sbind m g.
Proof. destruct m as [[s n] [a|x|]]; cbn; intros H; [|reflexivity..]. now rewrite (H a eq_refl). Qed.

Lemma with_heap_self s r : with_heap s (replace_nth r (sys_heap s) (obj s r)) = s.
Proof. unfold obj. rewrite replace_nth_self. now destruct s. Qed.

Lemma on_event_then s r f g : (r < List.length (sys_heap s))%nat ->
  sbind (on_event s r f) (fun s _ => on_event s r g) = on_event s r (fun e => mbind (f e) g).
Proof.
  intros L. unfold on_event. destruct (f (obj s r)) as [[e n] [u|x|]]; cbn [sbind mbind]; [|reflexivity..].
  rewrite obj_heap, replace_nth_get, Nat.eqb_refl. destruct (Nat.ltb_spec r (List.length (sys_heap s))) as [_|X]; [|lia].
  cbn [andb]. destruct (g e) as [[e2 n2] r2]. cbn [sys_heap with_heap].
  assert (R : forall (l : list event) k x y, replace_nth k (replace_nth k l x) y = replace_nth k l y).
  { induction l as [|z l IH]; intros [|k] x y; cbn; [reflexivity..|]. now rewrite IH. }
  rewrite R. reflexivity.
Qed.

Lemma announce_silent {M} (t : teller M) k s r x : snd (t k s r x) = (s, [], Ok tt) -> snd (announce t k s r x) = (s, [x], Ok tt).
Proof. intros T. unfold announce. rewrite tbind_ok. cbn [snd]. rewrite T. reflexivity. Qed.

Lemma status_silent {M} (t : teller M) k s r a st : silent_on_changes t ->
  snd (set_status_on t k s r a st) = on_event s r (fun e => set_status e a st).
Proof.
  intros T. unfold set_status_on, on_event, set_status.
  destruct (match st with None => true | Some x => str_in x statuses end); [|cbn [snd unheard]; now rewrite with_heap_self].
  rewrite tbind_slift. destruct (get_status (obj s r) a) as [old|x|]; [|cbn [snd unheard]; now rewrite with_heap_self..].
  destruct (opt_str_eqb old st); [cbn [snd unheard]; now rewrite with_heap_self|].
  pose proof (set_raw_attrs (obj s r) a st) as U.
  destruct (set_status_raw (obj s r) a st) as [[e1 n1] [u|x|]]; cbn [mbind]; [|reflexivity..].
  rewrite tbind_ok. cbn [snd].
  destruct a as [i|]; [|reflexivity].
  assert (U1 : e_uid (obj (with_heap s (replace_nth r (sys_heap s) e1)) r) = e_uid e1).
  { rewrite obj_heap, replace_nth_get, Nat.eqb_refl. destruct (Nat.ltb_spec r (List.length (sys_heap s))) as [L|L]; [reflexivity|].
    cbn [andb]. unfold mev in U. cbn [fst] in U. destruct U as (U & _). rewrite U. reflexivity. }
  rewrite U1, announce_silent by apply T. reflexivity.
Qed.

Lemma invite_silent {M} (t : teller M) r l : silent_on_changes t -> forall k s, (r < List.length (sys_heap s))%nat ->
  snd (invite_on t k s r l) = on_event s r (fun e => invite e l).
Proof.
  intros T. induction l as [|a l IH]; intros k s L; cbn [invite_on invite].
  - unfold on_event. cbn [snd unheard]. now rewrite with_heap_self.
  - rewrite tbind_slift. destruct (get_status (obj s r) a) as [[st|]|x|] eqn:G.
    + rewrite (IH k s L). unfold on_event. rewrite G. reflexivity.
    + set (f1 := fun e => mbind (set_status e a (Some "NEEDS-ACTION"%string)) (fun e1 => set_role e1 a "REQ-PARTICIPANT")).
      assert (X : snd (tbind (set_status_on t k s r a (Some "NEEDS-ACTION"%string)) (fun k s _ => unheard k (set_role_on s r a "REQ-PARTICIPANT")))
                  = on_event s r f1).
      { rewrite (tbind_snd _ _ (fun s _ => set_role_on s r a "REQ-PARTICIPANT")) by (intros; reflexivity).
        rewrite (status_silent t k s r a _ T). unfold set_role_on. rewrite (on_event_then s r _ _ L). reflexivity. }
      rewrite (tbind_snd _ _ (fun s _ => on_event s r (fun e => invite e l))).
      * rewrite X, (on_event_then s r _ _ L). unfold on_event. rewrite G. reflexivity.
      * intros k1 u _. rewrite X. apply IH. unfold on_event.
        destruct (f1 (obj s r)) as [[e1 n1] r1]. cbn. now rewrite replace_nth_length.
    + unfold on_event. rewrite G, with_heap_self. reflexivity.
    + unfold on_event. rewrite G, with_heap_self. reflexivity.
Qed.

Lemma replace_last {A} (l : list A) x y : replace_nth (List.length l) (l ++ [x]) y = l ++ [y].
Proof. induction l as [|z l IH]; cbn; [reflexivity|]. now rewrite IH. Qed.

Lemma create_silent {M} (t : teller M) cf k s uid sp now : silent t -> snd (create_on t cf k s uid sp now) = create_event cf s uid sp now.
Proof.
  intros T. unfold create_on. rewrite (tbind_snd _ _ (fun s r => sret s r)); [apply sbind_ret|].
  intros k1 r _. rewrite (tbind_snd _ _ (fun s _ => sret s r)) by (intros; reflexivity). now rewrite T.
Qed.

Lemma delete_silent {M} (t : teller M) k s r : silent t -> snd (delete_on t k s r) = delete_event s r.
Proof.
  intros T. unfold delete_on. rewrite (tbind_snd _ _ (fun s r => sret s r)); [apply sbind_ret|]. intros k1 [] _. apply T.
Qed.

Lemma import_silent {M} (t : teller M) cf k s c parsed p cr sync : silent t ->
  snd (import_on t cf k s c parsed p cr sync) = import_cal cf s c parsed p cr sync.
Proof.
  intros T. unfold import_on, import_cal. apply tbind_snd. intros k1 evs _. cbv zeta. apply tbind_snd. intros k2 [vs|] _; [|reflexivity].
  unfold slift, sst. cbn [fst snd unheard]. set (known := nodup string_dec (map e_uid evs)). clearbody known.
  assert (L : forall l k s, snd (import_loop_on t cf k s c known l) = import_loop cf s c known l).
  { induction l as [|v l IH]; intros k0 s0; cbn [import_loop_on import_loop]; [reflexivity|].
    assert (O : snd (import_one_on t cf k0 s0 c known v) = import_one cf s0 c known v).
    { unfold import_one_on, import_one. destruct (v_uid v) as [u|]; [|reflexivity]. destruct (str_in u known).
      - rewrite (tbind_snd _ _ (fun s _ => sret s u)) by (intros; reflexivity). f_equal.
        unfold import_existing_on, import_existing. apply tbind_snd. intros k3 r _. apply tbind_snd. intros k4 sp _.
        apply tbind_snd. intros k5 [|] _; [|reflexivity]. apply tbind_snd. intros k6 [] _. rewrite announce_silent by apply T. reflexivity.
      - destruct (has_event s0 u); [reflexivity|]. rewrite (tbind_snd _ _ (fun s _ => sret s u)) by (intros; reflexivity). f_equal.
        unfold import_new_on, import_new. apply tbind_snd. intros k3 sp _.
        rewrite (tbind_snd _ _ (fun s _ => sret s tt)) by (intros; reflexivity). now rewrite (create_silent t cf _ _ _ _ _ T). }
    rewrite <- O. apply tbind_snd. intros k1' u _. rewrite (tbind_snd _ _ (fun s us => sret s (u :: us))) by (intros; reflexivity).
    now rewrite IH. }
  rewrite (tbind_snd _ _ (fun s ical => if sync then delete_loop s (filter (fun u => negb (str_in u ical)) known) else sret s tt)).
  - now rewrite L.
  - intros k3 ical _. destruct sync; [|reflexivity].
    generalize (sst (snd (import_loop_on t cf k2 s c known vs))). generalize (filter (fun u => negb (str_in u ical)) known). intros us.
    revert k3. induction us as [|u us IH]; intros k3 s0; cbn [delete_loop_on delete_loop]; [reflexivity|].
    apply tbind_snd. intros k4 r _. rewrite <- (delete_silent t k4 _ _ T). apply tbind_snd. intros k5 _ _. apply IH.
Qed.

(** However many subscribers only listen, whatever they remember, every call
    leaves the state, announces and returns what it does without them. *)
Theorem C116_listeners M depth cf (subs : list (watcher M)) k s o : Forall only_listens subs -> refers_to_object s o ->
  snd (step_told (S depth) cf subs k s o) = step cf s o.
Proof.
  intros F R. assert (T : silent (deliver (S depth) cf subs)) by (intros ? ? ? ?; now apply each_silent).
  unfold step_told. set (t := deliver (S depth) cf subs) in *. clearbody t.
  assert (D : forall m : tmut M nat, snd (tbind m (fun k s _ => unheard k (sret s tt))) = drop (snd m)).
  { intros [k0 [[s0 n0] [a|x|]]]; cbn; [now rewrite app_nil_r|reflexivity..]. }
  destruct o; cbn [step_on step]; try reflexivity.
  - now rewrite D, create_silent.
  - now rewrite D, create_silent.
  - now apply delete_silent.
  - apply invite_silent; [intros ? ? ? ? ? ? ?; apply T|exact R].
  - apply status_silent. intros ? ? ? ? ? ? ?. apply T.
  - now apply import_silent.
Qed.
(** remembers what it hears *)
Definition diary : watcher (list notification) := fun k _ _ x => fine (k ++ [x]).
Example C116_listeners_ex :
  Forall only_listens [deaf; diary] /\ refers_to_object (run cf0 office) (OInvite 0 [bob])
  /\ step_told 1 cf0 [deaf; diary] [] (run cf0 office) (OInvite 0 [bob])
     = ([NParticipation "a1" "bob" None (Some "NEEDS-ACTION")]%string, step cf0 (run cf0 office) (OInvite 0 [bob]))
  /\ snt (step cf0 (run cf0 office) (OInvite 0 [bob])) = [NParticipation "a1" "bob" None (Some "NEEDS-ACTION")]%string.
Proof.
  split; [repeat constructor; intros ? ? ? ?; eexists; reflexivity|]. split; [vm_compute; repeat constructor|]. split; vm_compute; reflexivity.
Qed.
Print Assumptions C116_listeners.

(** * C117: a subscriber that invites whom it wants to every new event *)
Lemma one_call_snd {M} act s (k : M) o : snd (carry_out act s (one_call k o)) = snd (act k s o).
Proof. unfold one_call. cbn [carry_out]. destruct (act k s o) as [k1 [[s1 n1] r1]]. cbn. now rewrite app_nil_r. Qed.

(** Such a subscriber works: createEvent returns an event that is stored with
    the others invited, and announces the event first, then the invitations. *)
Theorem C117_inviter M depth cf (k : M) s uid sp now l e :
  (2 <= depth)%nat -> ~ In None l ->
  let u := match uid with Some u => u | None => generated_id cf now (List.length (sys_store s)) end in
  new_event u sp = Ok e ->
  exists e' n, snd (step_told depth cf [inviter l] k s (OCreate uid sp now))
    = (mkSys (sys_heap s ++ [e']) (dset (sys_store s) u (List.length (sys_heap s))) (sys_source s) (sys_cals s),
       NCreated u :: n, Ok tt)
  /\ invite e l = (e', n, Ok tt)
  /\ (forall i, In (Some i) l -> dget (e_state e') i <> None).
Proof.
  intros D NN u NE. destruct depth as [|[|d]]; [lia|lia|].
  destruct (invite_spec l e NN) as (e' & ids & INV & _ & _ & I1 & I2 & _).
  exists e'. eexists. split; [|split; [exact INV|]].
  - unfold step_told. cbn [step_on]. unfold create_on, create_event. change (match uid with Some u => u | None => _ end) with u.
    rewrite NE. rewrite tbind_ok. set (s1 := mkSys (sys_heap s ++ [e]) _ _ _). set (r := List.length (sys_heap s)).
    assert (L : (r < List.length (sys_heap s1))%nat) by (unfold s1, r; cbn [sys_heap]; rewrite app_length; cbn [List.length]; lia).
    assert (O : obj s1 r = e) by (exact (nth_middle (sys_heap s) [] e (blank ""))).
    rewrite O. assert (EU : e_uid e = u) by (now apply new_event_uid in NE). rewrite EU.
    assert (DL : snd (deliver (S (S d)) cf [inviter l] k s1 r (NCreated u)) = on_event s1 r (fun e => invite e l)).
    { change (deliver (S (S d)) cf [inviter l] k s1 r (NCreated u))
        with (tbind (M:=M) (carry_out (step_on (deliver (S d) cf [inviter l]) cf) s1 (one_call k (OInvite r l))) (fun (k : M) s (_ : unit) => unheard k (sret s tt))).
      transitivity (sbind (on_event s1 r (fun e => invite e l)) (fun s _ => sret s tt)).
      - rewrite (tbind_snd _ _ (fun s _ => sret s tt)) by (intros; reflexivity). f_equal. rewrite one_call_snd.
        change (step_on (deliver (S d) cf [inviter l]) cf k s1 (OInvite r l)) with (invite_on (deliver (S d) cf [inviter l]) k s1 r l).
        apply invite_silent; [|exact L]. intros ? ? ? ? ? ? ?. reflexivity.
      - destruct (on_event s1 r (fun e => invite e l)) as [[s2 n2] [[]|y|]]; cbn; [now rewrite app_nil_r|reflexivity..]. }
    revert DL. unfold on_event. rewrite O, INV. destruct (deliver (S (S d)) cf [inviter l] k s1 r (NCreated u)) as [k2 [[s2 n2] r2]].
    cbn [snd]. intros X. injection X as -> -> ->. cbn. rewrite !app_nil_r. unfold s1, with_heap. cbn [sys_heap sys_store sys_source sys_cals].
    unfold r. rewrite replace_last. rewrite ?EU; reflexivity.
  - intros i Hi. rewrite I2. destruct (str_in i ids) eqn:Q; [discriminate|]. intros X.
    assert (In i ids) by (apply I1; auto). apply str_in_iff in H. congruence.
Qed.
Example C117_inviter_ex : let m := snd (step_told 2 cf0 [inviter [bob]] tt (run cf0 office) a_plan) in ~ In None [bob]
  /\ snt m = [NCreated "n1"; NParticipation "n1" "bob" None (Some "NEEDS-ACTION")]%string
  /\ get_status (obj (sst m) 3) bob = Ok (Some "NEEDS-ACTION"%string).
Proof. split; [intros [X|[]]; discriminate X|]. vm_compute. repeat split. Qed.
Print Assumptions C117_inviter.

(** * C115 continued: what is announced *)
Lemma in_turn_history cf l : forall s h s' n, history cf s h -> in_turn cf s l = (s', n) ->
  exists h', history cf s' (h ++ h') /\ all_notes h' = n.
Proof.
  induction l as [|o l IH]; cbn [in_turn]; intros s h s' n H E.
  - injection E as <- <-. exists []. rewrite app_nil_r. split; [exact H|reflexivity].
  - destruct (step cf s o) as [[s1 n1] r1] eqn:S. destruct (in_turn cf s1 l) as [s2 n2] eqn:E2. injection E as <- <-.
    destruct (IH s1 _ s2 n2 (history_step cf s h o s1 n1 r1 H S) E2) as (h' & H' & N).
    exists ((o, n1, r1) :: h'). rewrite <- app_assoc in H'. split; [exact H'|]. unfold all_notes in *. cbn [flat_map fst snd]. now rewrite N.
Qed.

(** Whatever subscribers there were, all the notifications sent so far, but for
    the modifications, are those of a history without acting subscribers that led
    to the same state.  So what is said of histories and their notifications,
    such as C42_map, holds with subscribers. *)
Theorem C115_history cf s n : told_history cf s n ->
  exists h, history cf s h /\ all_notes h = filter (fun x => negb (modification x)) n.
Proof.
  induction 1 as [|M k s n depth subs o k' s' n' r _ (h & H & N) E]; [exists []; split; [constructor|reflexivity]|].
  destruct (C115_in_turn M cf (fun _ => True) depth subs k s o k' s' n' r) as (l & _ & L); try exact E; try exact I.
  { intros ? ? ? _ _. exact I. }
  { apply within_all. }
  destruct (in_turn_history cf l s h s' _ H L) as (h' & H' & N'). exists (h ++ h'). split; [exact H'|].
  unfold all_notes in *. rewrite flat_map_app, filter_app, N, N'. reflexivity.
Qed.
Print Assumptions C115_history.

(** In particular the storage always holds exactly the events announced as
    created and not as deleted since. *)
Theorem C115_storage cf s n uid : told_history cf s n ->
  get_event s uid = match snd (book (O, fun _ => None) n) uid with Some r => Ok r | None => Raise KeyError end.
Proof.
  intros T. destruct (C115_history cf s n T) as (h & H & N). destruct (C42_map cf s h uid H) as [-> _]. rewrite N.
  assert (B : forall n l, book l (filter (fun x => negb (modification x)) n) = book l n).
  { clear. induction n as [|x n IH]; intros l; [reflexivity|]. destruct x, l; cbn [filter modification negb book]; apply IH. }
  now rewrite B.
Qed.
Example C115_storage_ex : let m := snd (step_told 3 cf0 [inviter [bob]; accept] tt init a_plan) in
  told_history cf0 (sst m) ([] ++ snt m) /\ get_event (sst m) "n1" = Ok O.
Proof.
  cbv zeta. split; [|vm_compute; reflexivity].
  destruct (step_told 3 cf0 [inviter [bob]; accept] tt init a_plan) as [k [[s n] r]] eqn:E.
  exact (told_step cf0 unit tt init [] 3 [inviter [bob]; accept] a_plan k s n r (told_init cf0) E).
Qed.
Print Assumptions C115_storage.

(** * C118: nothing is lost unless somebody deletes *)
Lemma keeps_closed cf : closed cf (fun o => ~ deletes o).
Proof.
  intros s o o' H P. destruct P; cbn [deletes] in *; auto.
Qed.

(** If neither the call nor any subscriber deletes an event or synchronizes, then
    every event stored before the call is stored after it. *)
Theorem C118_kept M depth cf (subs : list (watcher M)) k s o uid : ~ deletes o -> within (fun o => ~ deletes o) subs ->
  has_event s uid = true -> has_event (sst (snd (step_told depth cf subs k s o))) uid = true.
Proof.
  intros D W H. destruct (step_told depth cf subs k s o) as [k' [[s' n] r]] eqn:E.
  destruct (C115_in_turn M cf _ depth subs k s o k' s' n r (keeps_closed cf) W D E) as (l & F & L).
  clear E D W. unfold sst. cbn [fst snd]. revert s H L. generalize (filter (fun x => negb (modification x)) n). clear n.
  induction F as [|o' l NO F IH]; cbn [in_turn]; intros n s0 H L; [injection L as <- _; exact H|].
  pose proof (step_store (fun d => dget d uid <> None) cf s0 o') as Q.
  assert (H1 : has_event (sst (step cf s0 o')) uid = true).
  { unfold has_event, get_event in *.
    assert (X : dget (sys_store (sst (step cf s0 o'))) uid <> None).
    { apply Q.
      - intros d u r' _ X. rewrite dget_dset. destruct (String.eqb uid u); [discriminate|exact X].
      - intros d u DEL. contradiction.
      - intros d r' t _ _ X. rewrite dget_dset. destruct (String.eqb uid _); [discriminate|exact X].
      - intros X. rewrite X in H. discriminate. }
    destruct (dget (sys_store (sst (step cf s0 o'))) uid); [reflexivity|now elim X]. }
  unfold sst in H1. destruct (step cf s0 o') as [[s1 n1] r1]. cbn [fst] in H1.
  destruct (in_turn cf s1 l) as [s2 n2] eqn:E2. injection L as <- _. now apply (IH n2 s1).
Qed.
Example C118_kept_ex : let subs := [inviter [bob]; accept] : list (watcher unit) in
  within (fun o => ~ deletes o) subs /\ ~ deletes a_plan
  /\ has_event (run cf0 office) "a2" = true
  /\ has_event (sst (snd (step_told 3 cf0 subs tt (run cf0 office) a_plan))) "a2" = true.
Proof.
  split; [|split; [exact (fun x => x)|vm_compute; repeat split]].
  intros w k s r x [<-|[<-|[]]]; destruct x; cbn; auto.
Qed.
Print Assumptions C118_kept.

(** * C115 continued: sound calls *)
Lemma sound_closed cf H : closed cf (sound_op cf H).
Proof.
  intros s o o' S P. destruct P as [o|r l a _ _|r l a _|c vs p cr sync v u sp IN U _ SP|c vs p cr sync v u r sp IN U _ SP _|c vs p cr r u _];
    cbn [sound_op] in *; auto.
  - apply (import_spec_sound H (cf_tz cf) (source_knows s) (main_attendee s c) v); [|exact SP]. exact (proj1 (Forall_forall _ _) S v IN).
  - apply (import_spec_sound H (cf_tz cf) (source_knows s) (main_attendee s c) v); [|exact SP]. exact (proj1 (Forall_forall _ _) S v IN).
Qed.

(** If the calls and those of the subscribers are sound as in C109, the states
    they lead to are among those of C109, so that every query of a period up to
    [H] is answered, and exactly. *)
Theorem C115_sound cf H s : told_path cf (sound_op cf H) s -> path cf (fun _ o => sound_op cf H o) s.
Proof. apply C115_same_states, sound_closed. Qed.
(** a sound call with subscribers that make sound calls *)
Example C115_sound_ex : let m := snd (step_told 3 cf0 [inviter [bob]; accept] tt init a_plan) in
  told_path cf0 (sound_op cf0 (p_at 740000 0)) (sst m) /\ sys_heap (sst m) <> [].
Proof.
  split; [|vm_compute; discriminate]. apply told_path_step; [constructor| |].
  - intros w k s r x [<-|[<-|[]]]; destruct x; cbn; auto.
  - cbn. unfold sound_spec, sound_times, p_spec, p_at. cbn [s_duration s_dtstart s_recurrence]. split; [|discriminate].
    exists HOUR. vm_compute. repeat split; discriminate.
Qed.
Print Assumptions C115_sound.

(** * C118: subscribers that interfere with an import *)
(** a subscriber that deletes the event [u] when told that another was modified *)
Definition meddler {M} (u : string) : watcher M :=
  fun k s _ x => match x with
                 | NModified _ => match get_event s u with Ok r => one_call k (ODelete r) | _ => fine k end
                 | _ => fine k
                 end.

Definition x_both : list vevent :=
  [mkV (Some "a1") (Some (IFloat (p_at 732500 9))) (Some (IFloat (p_at 732500 11))) None (Some "Changed") None None None None [] [] None None None None;
   mkV (Some "a2") (Some (IFloat (p_at 732500 9))) (Some (IFloat (p_at 732500 11))) None (Some "Changed") None None None None [] [] None None None None]%string.

(** An import that succeeds by itself may fail with KeyError when a subscriber
    deletes an event, because the known events are looked up only once, before
    anything is imported; what was imported before stays. *)
Theorem C118_import : exists s (subs : list (watcher unit)) vs, reachable cf0 s
  /\ srs (step cf0 s (OImport 0 (Ok (Some vs)) (None, None) None false)) = Ok tt
  /\ srs (snd (step_told 2 cf0 subs tt s (OImport 0 (Ok (Some vs)) (None, None) None false))) = Raise KeyError
  /\ snt (snd (step_told 2 cf0 subs tt s (OImport 0 (Ok (Some vs)) (None, None) None false)))
     = [NModified "a1"; NDeleted "a2"]%string.
Proof.
  exists (run cf0 office), [meddler "a2"], x_both. split; [apply run_reachable|]. vm_compute. repeat split.
Qed.
Print Assumptions C118_import.
